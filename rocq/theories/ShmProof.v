(** Proofs about shared memory set-up. *)
From Verif Require Import ShmModel ShmSpec.
Local Open Scope N_scope.

Lemma set_obj_len : forall objs o f, length (set_obj objs o f) = length objs.
Proof. induction objs as [|b r IH]; intros [|k] f; cbn; auto. Qed.
Lemma set_obj_same : forall objs o f, (o < length objs)%nat -> obj_at (set_obj objs o f) o = f (obj_at objs o).
Proof.
  unfold obj_at. induction objs as [|b r IH]; intros [|k] f H; cbn in *; try lia; auto.
  apply IH. lia.
Qed.
Lemma set_obj_other : forall objs o f k, k <> o -> obj_at (set_obj objs o f) k = obj_at objs k.
Proof.
  unfold obj_at. induction objs as [|b r IH]; intros [|o] f [|k] H; cbn; auto; try congruence.
Qed.
Lemma app_obj_old : forall objs b k, (k < length objs)%nat -> obj_at (objs ++ [b]) k = obj_at objs k.
Proof. intros. unfold obj_at. apply app_nth1. auto. Qed.
Lemma app_obj_new : forall objs b, obj_at (objs ++ [b]) (length objs) = b.
Proof. intros. unfold obj_at. rewrite app_nth2, Nat.sub_diag by lia. reflexivity. Qed.

(** * Invariants *)

Definition full (c : scfg) (b : obj) : Prop :=
  o_size b = total (c_req c) (c_resp c) (c_dma c) /\
  h_req (o_hdr b) = c_req c /\ h_resp (o_hdr b) = c_resp c /\ h_dma (o_hdr b) = c_dma c.
Definition settled (b : obj) : Prop := h_init (o_hdr b) <> 0.
Definition same4 (b b' : obj) : Prop :=
  o_size b' = o_size b /\ h_req (o_hdr b') = h_req (o_hdr b) /\
  h_resp (o_hdr b') = h_resp (o_hdr b) /\ h_dma (o_hdr b') = h_dma (o_hdr b).
Definition view_of (b : obj) : view :=
  let h := o_hdr b in
  mk_view (total (h_req h) (h_resp h) (h_dma h)) (h_req h) (h_resp h) (h_dma h) (h_req h) (h_resp h).
Definition cview (c : scfg) : view :=
  mk_view (total (c_req c) (c_resp c) (c_dma c)) (c_req c) (c_resp c) (c_dma c) (c_req c) (c_resp c).

Definition own (p : spc) : option nat :=
  match p with
  | SUnlink | SCreate | SUnlinkFail | SFail _ => None
  | STrunc o | SMapHdr o | SWReq o | SWResp o | SWDma o | SWPid o | SWInit o | SMap o | SRd1 o | SRd2 o _
  | SRd3 o _ _ | SRd4 o _ _ _ | SRd5 o _ _ _ _ | SMapped o _ | SInit o _ | SDone o => Some o
  end.

Definition T (c : scfg) : N := total (c_req c) (c_resp c) (c_dma c).

Definition spinv (c : scfg) (objs : list obj) (p : spc) : Prop :=
  (forall o, own p = Some o -> (o < length objs)%nat) /\
  match p with
  | SUnlink | SCreate | SUnlinkFail | SFail _ => True
  | STrunc o => h_init (hdr_at objs o) = 0
  | SMapHdr o | SWReq o => h_init (hdr_at objs o) = 0 /\ o_size (obj_at objs o) = T c
  | SWResp o => h_init (hdr_at objs o) = 0 /\ o_size (obj_at objs o) = T c /\ h_req (hdr_at objs o) = c_req c
  | SWDma o => h_init (hdr_at objs o) = 0 /\ o_size (obj_at objs o) = T c /\ h_req (hdr_at objs o) = c_req c /\
               h_resp (hdr_at objs o) = c_resp c
  | SWPid o | SWInit o => h_init (hdr_at objs o) = 0 /\ full c (obj_at objs o)
  | SMap o | SRd1 o | SDone o => settled (obj_at objs o) /\ full c (obj_at objs o)
  | SRd2 o r => settled (obj_at objs o) /\ full c (obj_at objs o) /\ r = c_req c
  | SRd3 o r q => settled (obj_at objs o) /\ full c (obj_at objs o) /\ r = c_req c /\ q = c_resp c
  | SRd4 o r q d => settled (obj_at objs o) /\ full c (obj_at objs o) /\ r = c_req c /\ q = c_resp c /\ d = c_dma c
  | SRd5 o r q d r' => settled (obj_at objs o) /\ full c (obj_at objs o) /\ r = c_req c /\ q = c_resp c /\ d = c_dma c /\ r' = c_req c
  | SMapped o v | SInit o v => settled (obj_at objs o) /\ full c (obj_at objs o) /\ v = cview c /\ mem_ok (c_req c) (c_resp c) = true
  end.

Definition good (objs : list obj) (o : nat) : Prop := (o < length objs)%nat /\ settled (obj_at objs o).
Definition cpinv (objs : list obj) (p : cpc) : Prop :=
  match p with
  | CNone _ | CDone None => True
  | CStat o | CMapHdr o | CRdInit o => (o < length objs)%nat
  | CRd1 o | CDone (Some o) => good objs o
  | CRd2 o r => good objs o /\ r = h_req (hdr_at objs o)
  | CRd3 o r q => good objs o /\ r = h_req (hdr_at objs o) /\ q = h_resp (hdr_at objs o)
  | CMap o z | CM1 o z => good objs o /\ z = v_size (view_of (obj_at objs o))
  | CM2 o z r => good objs o /\ z = v_size (view_of (obj_at objs o)) /\ r = h_req (hdr_at objs o)
  | CM3 o z r q => good objs o /\ z = v_size (view_of (obj_at objs o)) /\ r = h_req (hdr_at objs o) /\ q = h_resp (hdr_at objs o)
  | CUnl o z r q d | CPid o z r q d | CSet o z r q d | CCf1 o z r q d =>
      good objs o /\ z = v_size (view_of (obj_at objs o)) /\ r = h_req (hdr_at objs o) /\ q = h_resp (hdr_at objs o) /\
      d = h_dma (hdr_at objs o)
  | CCf2 o z r q d r' =>
      good objs o /\ z = v_size (view_of (obj_at objs o)) /\ r = h_req (hdr_at objs o) /\ q = h_resp (hdr_at objs o) /\
      d = h_dma (hdr_at objs o) /\ r' = h_req (hdr_at objs o)
  | CInit o v => good objs o /\ v = view_of (obj_at objs o)
  end.

(** Client that has removed the name of [o]. *)
Definition unlinked (p : cpc) (o : nat) : Prop :=
  match p with
  | CPid o' _ _ _ _ | CSet o' _ _ _ _ | CCf1 o' _ _ _ _ | CCf2 o' _ _ _ _ _ | CInit o' _ | CDone (Some o') => o' = o
  | _ => False
  end.

(** How the objects may change under a step of a process owning [mo]. *)
Definition evo (mo : option nat) (objs objs' : list obj) : Prop :=
  (length objs <= length objs')%nat /\
  forall o, (o < length objs)%nat ->
    let b := obj_at objs o in let b' := obj_at objs' o in
    (h_init (o_hdr b) = 0 /\ mo = Some o) \/ (h_init (o_hdr b) = 0 /\ b' = b) \/
    (settled b /\ settled b' /\ same4 b b').

Lemma evo_refl : forall mo objs, evo mo objs objs.
Proof.
  intros. split; auto. intros o L. cbn. destruct (N.eq_dec (h_init (o_hdr (obj_at objs o))) 0); auto.
  right; right. unfold settled, same4; auto 10.
Qed.
Lemma evo_new : forall mo objs, evo mo objs (objs ++ [new_obj]).
Proof.
  intros. split. { rewrite app_length; cbn; lia. } intros o L. cbn. rewrite app_obj_old by auto.
  destruct (N.eq_dec (h_init (o_hdr (obj_at objs o))) 0); auto.
  right; right. unfold settled, same4; auto 10.
Qed.
Lemma evo_own : forall objs o f, h_init (hdr_at objs o) = 0 -> evo (Some o) objs (set_obj objs o f).
Proof.
  intros objs o f H. split. { rewrite set_obj_len; lia. } intros k L. cbn.
  destruct (Nat.eq_dec k o) as [->|NE]; [left; auto|]. rewrite set_obj_other by auto.
  destruct (N.eq_dec (h_init (o_hdr (obj_at objs k))) 0); auto.
  right; right. unfold settled, same4; auto 10.
Qed.
Lemma evo_init : forall mo objs o x, x <> 0 -> settled (obj_at objs o) -> evo mo objs (set_hdr objs o (w_init x)).
Proof.
  intros mo objs o x X H. split. { unfold set_hdr. rewrite set_obj_len; lia. } intros k L. cbn. unfold set_hdr.
  destruct (Nat.eq_dec k o) as [->|NE].
  - rewrite set_obj_same by auto. right; right. unfold settled, same4. cbn. auto 10.
  - rewrite set_obj_other by auto. destruct (N.eq_dec (h_init (o_hdr (obj_at objs k))) 0); auto.
    right; right. unfold settled, same4; auto 10.
Qed.
Lemma evo_user : forall mo objs o x, settled (obj_at objs o) -> evo mo objs (set_hdr objs o (w_user x)).
Proof.
  intros mo objs o x H. split. { unfold set_hdr. rewrite set_obj_len; lia. } intros k L. cbn. unfold set_hdr.
  destruct (Nat.eq_dec k o) as [->|NE].
  - rewrite set_obj_same by auto. right; right. unfold settled, same4 in *. cbn. auto 10.
  - rewrite set_obj_other by auto. destruct (N.eq_dec (h_init (o_hdr (obj_at objs k))) 0); auto.
    right; right. unfold settled, same4; auto 10.
Qed.

Lemma same4_full : forall c b b', same4 b b' -> full c b -> full c b'.
Proof. unfold same4, full. intros c b b' (A & B & C & D) (E & F & G & H). rewrite A, B, C, D. auto. Qed.
Lemma same4_view : forall b b', same4 b b' -> view_of b' = view_of b.
Proof. unfold same4, view_of. intros b b' (A & B & C & D). rewrite B, C, D. auto. Qed.

Lemma srv_stable : forall mo objs objs' c p, evo mo objs objs' ->
  (forall o, own p = Some o -> mo <> Some o) -> spinv c objs p -> spinv c objs' p.
Proof.
  intros mo objs objs' c p [L E] NO [B H]. split. { intros o O. specialize (B o O). lia. }
  destruct p; cbn in NO, B, H |- *; auto;
  (pose proof (B o eq_refl) as LT; pose proof (NO o eq_refl) as NE;
   destruct (E o LT) as [[Z M] | [[Z M] | (S1 & S2 & S4)]]; [congruence | unfold hdr_at in *; rewrite M; auto | ];
   unfold hdr_at in *;
   try (exfalso; unfold settled in S1; tauto);
   intuition; eauto using same4_full).
Qed.

Lemma cli_stable : forall mo objs objs' p, evo mo objs objs' -> cpinv objs p -> cpinv objs' p.
Proof.
  intros mo objs objs' p [L E] H.
  assert (G : forall o, good objs o -> good objs' o /\ view_of (obj_at objs' o) = view_of (obj_at objs o) /\
     h_req (hdr_at objs' o) = h_req (hdr_at objs o) /\ h_resp (hdr_at objs' o) = h_resp (hdr_at objs o) /\
     h_dma (hdr_at objs' o) = h_dma (hdr_at objs o)).
  { intros o [A B]. destruct (E o A) as [[Z M] | [[Z M] | (S1 & S2 & S4)]]; try (exfalso; unfold settled in B; tauto).
    split. { split; auto. lia. } split. { apply same4_view; auto. } destruct S4 as (S4 & S5 & S6 & S7). auto. }
  destruct p; cbn [cpinv] in *; auto; try lia;
  try (match type of H with context [good objs ?x] =>
    assert (GG : good objs x) by tauto; destruct (G x GG) as (G0 & G1 & G2 & G3 & G4); rewrite ?G1, ?G2, ?G3, ?G4; tauto end).
  destruct o; auto. apply G; auto.
Qed.

Lemma full_cview : forall c b, full c b -> view_of b = cview c.
Proof. unfold full, view_of, cview. intros c b (A & B & C & D). rewrite B, C, D. auto. Qed.

Ltac objs_simp := unfold hdr_at, set_hdr in *; rewrite ?set_obj_same, ?set_obj_len in * by auto; cbn in *.

(** One step of a server. *)
Lemma srv_step : forall c me i name objs p n' os' p',
  sstep c me i name objs p = (n', os', p') -> spinv c objs p -> (forall o, name = Some o -> (o < length objs)%nat) ->
  evo (own p) objs os' /\ spinv c os' p' /\
  ((os' = objs ++ [new_obj] /\ n' = Some (length objs) /\ own p = None /\ own p' = Some (length objs)) \/
   (length os' = length objs /\ (n' = name \/ n' = None) /\ (own p' = own p \/ own p' = None))) /\
  (forall o, (o < length objs)%nat -> settled (obj_at os' o) -> settled (obj_at objs o) \/ full c (obj_at os' o)) /\
  (forall o, (o < length objs)%nat -> h_init (hdr_at os' o) = 3 -> h_init (hdr_at objs o) = 3) /\
  (forall o v, p' = SInit o v -> p = p' \/ h_init (hdr_at objs o) = 3).
Proof.
  intros c me i name objs p n' os' p' R H NM. destruct H as [B H].
  assert (ID : forall o, (o < length objs)%nat -> settled (obj_at objs o) -> settled (obj_at objs o) \/ full c (obj_at objs o)) by auto.
  destruct p as [ | |o|o|o|o|o|o|o|o|o|o r|o r q|o r q d|o r q d r'|o v|o v|o| |rc];
    destruct i as [ok|]; cbn [sstep] in R;
  try (injection R as <- <- <-; split; [apply evo_refl|]; split; [split; [exact B|exact H]|];
       split; [right; split; [reflexivity|]; auto|]; split; [exact ID|]; split; [auto|]; intros; discriminate).
  - (* SCreate *) destruct name as [x|].
    + injection R as <- <- <-; split; [apply evo_refl|]; split; [split; [discriminate|exact I]|].
      split; [right; auto|]; split; [exact ID|]; split; [auto|]; intros; discriminate.
    + destruct ok; injection R as <- <- <-.
      2:{ split; [apply evo_refl|]; split; [split; [discriminate|exact I]|].
          split; [right; auto|]; split; [exact ID|]; split; [auto|]; intros; discriminate. }
      split; [apply evo_new|]. split.
      { split; [intros o [= <-]; rewrite app_length; cbn; lia|]. unfold hdr_at. rewrite app_obj_new. reflexivity. }
      split; [left; auto|]. split; [intros o L; rewrite app_obj_old by auto; auto|].
      split; [intros o L; unfold hdr_at; rewrite app_obj_old by auto; auto|intros; discriminate].
  - (* STrunc *) pose proof (B o eq_refl) as L. destruct ok; injection R as <- <- <-.
    2:{ split; [apply evo_refl|]; split; [split; [discriminate|exact I]|].
        split; [right; auto|]; split; [exact ID|]; split; [auto|]; intros; discriminate. }
    split; [apply evo_own; auto|]. split.
    { split; [intros k [= <-]; rewrite set_obj_len; auto|]. objs_simp. auto. }
    split; [right; rewrite set_obj_len; auto|].
    split; [|split; [|intros; discriminate]]; intros k LK; destruct (Nat.eq_dec k o) as [->|NE]; unfold hdr_at;
      rewrite ?set_obj_same, ?set_obj_other by auto; auto.
  - (* SMapHdr *) pose proof (B o eq_refl) as L. injection R as <- <- <-.
    split; [apply evo_refl|]; split; [destruct ok; [split; [exact B|exact H]|split; [discriminate|exact I]]|].
    split; [right; destruct ok; auto|]; split; [exact ID|]; split; [auto|]; destruct ok; intros; discriminate.
  - (* SWReq *) pose proof (B o eq_refl) as L. injection R as <- <- <-. destruct H as [H0 H1].
    split; [apply evo_own; auto|]. split.
    { split; [intros k [= <-]; unfold set_hdr; rewrite set_obj_len; auto|]. objs_simp. auto. }
    split; [right; unfold set_hdr; rewrite set_obj_len; auto|].
    split; [|split; [|intros; discriminate]]; intros k LK; unfold hdr_at, set_hdr in *; destruct (Nat.eq_dec k o) as [->|NE];
      rewrite ?set_obj_same, ?set_obj_other by auto; auto.
  - (* SWResp *) pose proof (B o eq_refl) as L. injection R as <- <- <-. destruct H as (H0 & H1 & H2).
    split; [apply evo_own; auto|]. split.
    { split; [intros k [= <-]; unfold set_hdr; rewrite set_obj_len; auto|]. objs_simp. auto. }
    split; [right; unfold set_hdr; rewrite set_obj_len; auto|].
    split; [|split; [|intros; discriminate]]; intros k LK; unfold hdr_at, set_hdr in *; destruct (Nat.eq_dec k o) as [->|NE];
      rewrite ?set_obj_same, ?set_obj_other by auto; auto.
  - (* SWDma *) pose proof (B o eq_refl) as L. injection R as <- <- <-. destruct H as (H0 & H1 & H2 & H3).
    split; [apply evo_own; auto|]. split.
    { split; [intros k [= <-]; unfold set_hdr; rewrite set_obj_len; auto|]. objs_simp. unfold full; cbn. auto. }
    split; [right; unfold set_hdr; rewrite set_obj_len; auto|].
    split; [|split; [|intros; discriminate]]; intros k LK; unfold hdr_at, set_hdr in *; destruct (Nat.eq_dec k o) as [->|NE];
      rewrite ?set_obj_same, ?set_obj_other by auto; auto.
  - (* SWPid *) pose proof (B o eq_refl) as L. injection R as <- <- <-. destruct H as (H0 & H1).
    split; [apply evo_own; auto|]. split.
    { split; [intros k [= <-]; unfold set_hdr; rewrite set_obj_len; auto|]. objs_simp. unfold full in *; cbn. auto. }
    split; [right; unfold set_hdr; rewrite set_obj_len; auto|].
    split; [|split; [|intros; discriminate]]; intros k LK; unfold hdr_at, set_hdr in *; destruct (Nat.eq_dec k o) as [->|NE];
      rewrite ?set_obj_same, ?set_obj_other by auto; auto.
  - (* SWInit *) pose proof (B o eq_refl) as L. injection R as <- <- <-. destruct H as (H0 & H1).
    split; [apply evo_own; auto|]. split.
    { split; [intros k [= <-]; unfold set_hdr; rewrite set_obj_len; auto|]. objs_simp. unfold settled, full in *; cbn.
      split; [discriminate|auto]. }
    split; [right; unfold set_hdr; rewrite set_obj_len; auto|].
    split; [|split; [|intros; discriminate]]; intros k LK; unfold hdr_at, set_hdr in *; destruct (Nat.eq_dec k o) as [->|NE];
      rewrite ?set_obj_same, ?set_obj_other by auto; auto.
    cbn. discriminate.
  - (* SMap *) injection R as <- <- <-.
    split; [apply evo_refl|]; split; [destruct ok; [split; [exact B|exact H]|split; [discriminate|exact I]]|].
    split; [right; destruct ok; auto|]; split; [exact ID|]; split; [auto|]; destruct ok; intros; discriminate.
  - (* SRd1 *) injection R as <- <- <-. destruct H as [H0 H1].
    split; [apply evo_refl|]; split; [split; [exact B|]|]. { cbn. unfold full, hdr_at in *. tauto. }
    split; [right; auto|]; split; [exact ID|]; split; [auto|]; intros; discriminate.
  - (* SRd2 *) injection R as <- <- <-. destruct H as (H0 & H1 & H2).
    split; [apply evo_refl|]; split; [split; [exact B|]|]. { cbn. unfold full, hdr_at in *. tauto. }
    split; [right; auto|]; split; [exact ID|]; split; [auto|]; intros; discriminate.
  - (* SRd3 *) injection R as <- <- <-. destruct H as (H0 & H1 & H2 & H3).
    split; [apply evo_refl|]; split; [split; [exact B|]|]. { cbn. unfold full, hdr_at in *. tauto. }
    split; [right; auto|]; split; [exact ID|]; split; [auto|]; intros; discriminate.
  - (* SRd4 *) injection R as <- <- <-. destruct H as (H0 & H1 & H2 & H3 & H4).
    split; [apply evo_refl|]; split; [split; [exact B|]|]. { cbn. unfold full, hdr_at in *. tauto. }
    split; [right; auto|]; split; [exact ID|]; split; [auto|]; intros; discriminate.
  - (* SRd5 *) destruct H as (H0 & H1 & H2 & H3 & H4 & H5). cbn zeta in R.
    assert (Q : h_resp (hdr_at objs o) = c_resp c) by (unfold full, hdr_at in *; tauto). rewrite Q in R. subst r'.
    destruct (mem_ok (c_req c) (c_resp c)) eqn:M; injection R as <- <- <-.
    + split; [apply evo_refl|]; split; [split; [exact B|]|]. { cbn. subst. repeat split; auto; apply H1. }
      split; [right; auto|]; split; [exact ID|]; split; [auto|]; intros; discriminate.
    + split; [apply evo_refl|]; split; [split; [discriminate|exact I]|].
      split; [right; auto|]; split; [exact ID|]; split; [auto|]; intros; discriminate.
  - (* SMapped Go *) injection R as <- <- <-. unfold I_USER in *.
    split; [apply evo_refl|]. split; [destruct (_ =? 3); split; auto|].
    split; [right; destruct (_ =? 3); auto|]; split; [exact ID|]; split; [auto|].
    intros x w. destruct (h_init (hdr_at objs o) =? 3) eqn:EQ; intros E; [|discriminate].
    injection E as <- <-. right. apply N.eqb_eq; auto.
  - (* SMapped Clean *) pose proof (B o eq_refl) as L. injection R as <- <- <-. destruct H as (H0 & H1 & _).
    split; [apply evo_init; [discriminate|auto]|]. split.
    { split; [intros k [= <-]; unfold set_hdr; rewrite set_obj_len; auto|]. objs_simp. unfold settled, full in *; cbn.
      split; [discriminate|auto]. }
    split; [right; unfold set_hdr; rewrite set_obj_len; auto|].
    split; [|split; [|intros; discriminate]]; intros k LK; unfold hdr_at, set_hdr in *; destruct (Nat.eq_dec k o) as [->|NE];
      rewrite ?set_obj_same, ?set_obj_other by auto; auto.
    cbn. discriminate.
  - (* SInit Go *) injection R as <- <- <-.
    split; [apply evo_refl|]; split; [split; auto|]. split; [right; auto|]; split; [exact ID|]; split; [auto|]; auto.
  - (* SInit Clean *) pose proof (B o eq_refl) as L. injection R as <- <- <-. destruct H as (H0 & H1 & _).
    split; [apply evo_init; [discriminate|auto]|]. split.
    { split; [intros k [= <-]; unfold set_hdr; rewrite set_obj_len; auto|]. objs_simp. unfold settled, full in *; cbn.
      split; [discriminate|auto]. }
    split; [right; unfold set_hdr; rewrite set_obj_len; auto|].
    split; [|split; [|intros; discriminate]]; intros k LK; unfold hdr_at, set_hdr in *; destruct (Nat.eq_dec k o) as [->|NE];
      rewrite ?set_obj_same, ?set_obj_other by auto; auto.
    cbn. discriminate.
Qed.

(** One step of a client. *)
Lemma cli_step : forall me i name objs p n' os' p',
  cstep me i name objs p = (n', os', p') -> cpinv objs p -> (forall o, name = Some o -> (o < length objs)%nat) ->
  evo None objs os' /\ cpinv os' p' /\ length os' = length objs /\ (n' = name \/ n' = None) /\
  (forall o, unlinked p' o -> unlinked p o \/ n' = None) /\
  (forall o, (o < length objs)%nat -> settled (obj_at os' o) -> settled (obj_at objs o) /\ same4 (obj_at objs o) (obj_at os' o)) /\
  (forall o, (o < length objs)%nat -> h_init (hdr_at os' o) = 3 -> h_init (hdr_at objs o) = 3 \/ announced (PClient p') o) /\
  (forall o, announced (PClient p) o -> announced (PClient p') o \/ mem_ok (h_req (hdr_at objs o)) (h_resp (hdr_at objs o)) = false).
Proof.
  intros me i name objs p n' os' p' R H NM.
  assert (S4 : forall b, same4 b b) by (unfold same4; auto).
  assert (NA : forall q o, announced (PClient q) o -> match q with CCf1 o' _ _ _ _ | CCf2 o' _ _ _ _ _ | CInit o' _ | CDone (Some o') => o' = o | _ => False end)
    by (intros q o (q' & [= <-] & X); exact X).
  destruct p as [rc|o|o|o|o|o r|o r q|o z|o z|o z r|o z r q|o z r q d|o z r q d|o z r q d|o z r q d|o z r q d r'|o v|oo];
    destruct i as [ok|]; cbn [cstep] in R;
  try (injection R as <- <- <-; split; [apply evo_refl|]; split; [exact H|];
       split; [reflexivity|]; split; [auto|]; split; [auto|]; split; [auto|]; split; [auto|];
       intros k A; left; exact A).
  - (* open *) destruct name as [x|]; injection R as <- <- <-.
    + split; [apply evo_refl|]. split; [destruct ok; cbn; auto|].
      split; [reflexivity|]. split; [auto|]. split; [destruct ok; intros k []|]. split; [auto|]. split; [auto|].
      intros k A. apply NA in A. contradiction.
    + split; [apply evo_refl|]. split; [exact I|].
      split; [reflexivity|]. split; [auto|]. split; [intros k []|]. split; [auto|]. split; [auto|].
      intros k A. apply NA in A. contradiction.
  - (* clean, not mapped *) injection R as <- <- <-. split; [apply evo_refl|]. split; [exact I|].
    split; [reflexivity|]. split; [auto|]. split; [intros k []|]. split; [auto|]. split; [auto|].
    intros k A. apply NA in A. contradiction.
  - (* CStat *) injection R as <- <- <-. split; [apply evo_refl|].
    split; [destruct ok; [destruct (_ =? 0)|]; cbn; auto|].
    split; [reflexivity|]. split; [auto|]. split; [destruct ok; [destruct (_ =? 0)|]; intros k []|]. split; [auto|]. split; [auto|].
    intros k A. apply NA in A. contradiction.
  - (* CMapHdr *) injection R as <- <- <-. split; [apply evo_refl|].
    split; [destruct ok; cbn; auto|].
    split; [reflexivity|]. split; [auto|]. split; [destruct ok; intros k []|]. split; [auto|]. split; [auto|].
    intros k A. apply NA in A. contradiction.
  - (* CRdInit *) injection R as <- <- <-. split; [apply evo_refl|]. unfold I_CREATOR.
    destruct (h_init (hdr_at objs o) =? 2) eqn:EQ.
    + apply N.eqb_eq in EQ. split; [cbn; split; auto; unfold settled; unfold hdr_at in EQ; rewrite EQ; discriminate|].
      split; [reflexivity|]. split; [auto|]. split; [intros k []|]. split; [auto|]. split; [auto|].
      intros k A. apply NA in A. contradiction.
    + split; [exact I|]. split; [reflexivity|]. split; [auto|]. split; [intros k []|]. split; [auto|]. split; [auto|].
      intros k A. apply NA in A. contradiction.
  - (* CRd1 *) injection R as <- <- <-. split; [apply evo_refl|]. split; [cbn in *; auto|].
    split; [reflexivity|]. split; [auto|]. split; [intros k []|]. split; [auto|]. split; [auto|].
    intros k A. apply NA in A. contradiction.
  - (* CRd2 *) injection R as <- <- <-. split; [apply evo_refl|]. split; [cbn in *; tauto|].
    split; [reflexivity|]. split; [auto|]. split; [intros k []|]. split; [auto|]. split; [auto|].
    intros k A. apply NA in A. contradiction.
  - (* CRd3 *) injection R as <- <- <-. split; [apply evo_refl|].
    split; [destruct H as (H0 & -> & ->); cbn [cpinv]; split; [auto|reflexivity]|].
    split; [reflexivity|]. split; [auto|]. split; [intros k []|]. split; [auto|]. split; [auto|].
    intros k A. apply NA in A. contradiction.
  - (* CMap *) injection R as <- <- <-. split; [apply evo_refl|]. split; [destruct ok; cbn [cpinv] in *; auto|].
    split; [reflexivity|]. split; [auto|]. split; [destruct ok; intros k []|]. split; [auto|]. split; [auto|].
    intros k A. apply NA in A. contradiction.
  - (* CM1 *) injection R as <- <- <-. split; [apply evo_refl|]. split; [cbn [cpinv] in *; tauto|].
    split; [reflexivity|]. split; [auto|]. split; [intros k []|]. split; [auto|]. split; [auto|].
    intros k A. apply NA in A. contradiction.
  - (* CM2 *) injection R as <- <- <-. split; [apply evo_refl|]. split; [cbn [cpinv] in *; tauto|].
    split; [reflexivity|]. split; [auto|]. split; [intros k []|]. split; [auto|]. split; [auto|].
    intros k A. apply NA in A. contradiction.
  - (* CM3 *) injection R as <- <- <-. split; [apply evo_refl|]. split; [cbn [cpinv] in *; tauto|].
    split; [reflexivity|]. split; [auto|]. split; [intros k []|]. split; [auto|]. split; [auto|].
    intros k A. apply NA in A. contradiction.
  - (* CUnl *) injection R as <- <- <-. split; [apply evo_refl|]. split; [cbn [cpinv] in *; tauto|].
    split; [reflexivity|]. split; [auto|]. split; [auto|]. split; [auto|]. split; [auto|].
    intros k A. apply NA in A. contradiction.
  - (* CPid *) injection R as <- <- <-. pose proof H as (G & H1 & H2 & H3 & H4). destruct G as [L G].
    assert (E : evo None objs (set_hdr objs o (w_user me))) by (apply evo_user; auto).
    split; [exact E|]. split; [exact (cli_stable None objs _ (CSet o z r q d) E H)|].
    split; [apply set_obj_len|]. split; [auto|]. split; [intros k []; left; reflexivity|].
    split. { intros k LK. unfold set_hdr, settled. destruct (Nat.eq_dec k o) as [->|NE];
             rewrite ?set_obj_same, ?set_obj_other by auto; cbn; auto. intros X. split; auto. unfold same4; cbn; auto. }
    split. { intros k LK. unfold hdr_at, set_hdr. destruct (Nat.eq_dec k o) as [->|NE];
             rewrite ?set_obj_same, ?set_obj_other by auto; cbn; auto. }
    intros k A. apply NA in A. contradiction.
  - (* CSet *) injection R as <- <- <-. pose proof H as (G & H1 & H2 & H3 & H4). destruct G as [L G].
    assert (E : evo None objs (set_hdr objs o (w_init 3))) by (apply evo_init; [discriminate|auto]).
    split; [exact E|]. split; [exact (cli_stable None objs _ (CCf1 o z r q d) E H)|].
    split; [apply set_obj_len|]. split; [auto|]. split; [intros k []; left; reflexivity|].
    split. { intros k LK. unfold set_hdr. destruct (Nat.eq_dec k o) as [->|NE];
             rewrite ?set_obj_same, ?set_obj_other by auto; cbn; auto. intros X. split; auto. unfold same4; cbn; auto. }
    split. { intros k LK. unfold hdr_at, set_hdr. destruct (Nat.eq_dec k o) as [->|NE];
             rewrite ?set_obj_same, ?set_obj_other by auto; cbn; auto. intros _. right. eexists; split; [reflexivity|]. reflexivity. }
    intros k A. apply NA in A. contradiction.
  - (* CCf1 *) injection R as <- <- <-. split; [apply evo_refl|]. split; [cbn [cpinv] in *; tauto|].
    split; [reflexivity|]. split; [auto|]. split; [auto|]. split; [auto|]. split; [auto|].
    intros k A. apply NA in A. subst k. left. eexists; split; [reflexivity|]. reflexivity.
  - (* CCf2 *) cbn zeta in R. pose proof H as (G & H1 & H2 & H3 & H4 & H5). subst r'.
    destruct (mem_ok (h_req (hdr_at objs o)) (h_resp (hdr_at objs o))) eqn:M; injection R as <- <- <-.
    + split; [apply evo_refl|]. split. { cbn [cpinv]. split; [auto|]. subst. reflexivity. }
      split; [reflexivity|]. split; [auto|]. split; [auto|]. split; [auto|]. split; [auto|].
      intros k A. apply NA in A. subst k. left. eexists; split; [reflexivity|]. reflexivity.
    + split; [apply evo_refl|]. split; [exact I|].
      split; [reflexivity|]. split; [auto|]. split; [intros k []|]. split; [auto|]. split; [auto|].
      intros k A. apply NA in A. subst k. auto.
  - (* CInit Clean *) injection R as <- <- <-. pose proof H as (G & H1). destruct G as [L G].
    assert (E : evo None objs (set_hdr objs o (w_init 1))) by (apply evo_init; [discriminate|auto]).
    split; [exact E|]. split; [exact (cli_stable None objs _ (CDone (Some o)) E (conj L G))|].
    split; [apply set_obj_len|]. split; [auto|]. split; [intros k []; left; reflexivity|].
    split. { intros k LK. unfold set_hdr. destruct (Nat.eq_dec k o) as [->|NE];
             rewrite ?set_obj_same, ?set_obj_other by auto; cbn; auto. intros X. split; auto. unfold same4; cbn; auto. }
    split. { intros k LK. unfold hdr_at, set_hdr. destruct (Nat.eq_dec k o) as [->|NE];
             rewrite ?set_obj_same, ?set_obj_other by auto; cbn; auto; discriminate. }
    intros k A. apply NA in A. subst k. left. eexists; split; [reflexivity|]. reflexivity.
Qed.

Record Inv (s : sys) : Prop := mkInv {
  i_name : forall o, y_name s = Some o -> (o < length (y_objs s))%nat;
  i_srv : forall k c p, y_proc s k = PServer c p -> spinv c (y_objs s) p /\ scfg_ok c;
  i_cli : forall k p, y_proc s k = PClient p -> cpinv (y_objs s) p;
  i_own : forall k k' c c' p p' o, y_proc s k = PServer c p -> y_proc s k' = PServer c' p' ->
            own p = Some o -> own p' = Some o -> k = k';
  i_made : forall o, (o < length (y_objs s))%nat -> settled (obj_at (y_objs s) o) ->
            exists k c p, y_proc s k = PServer c p /\ full c (obj_at (y_objs s) o);
  i_unl : forall k p o, y_proc s k = PClient p -> unlinked p o -> y_name s <> Some o;
  i_user : forall o, (o < length (y_objs s))%nat -> h_init (hdr_at (y_objs s) o) = 3 ->
            mem_ok (h_req (hdr_at (y_objs s) o)) (h_resp (hdr_at (y_objs s) o)) = false \/ exists k, announced (y_proc s k) o;
  i_conn : forall k c o v, y_proc s k = PServer c (SInit o v) -> exists k', announced (y_proc s k') o
}.

Lemma inv_start : forall s, start s -> Inv s.
Proof.
  intros s (N0 & O0 & P0).
  assert (PS : forall k c p, y_proc s k = PServer c p -> p = SUnlink /\ scfg_ok c)
    by (intros k c p E; specialize (P0 k); rewrite E in P0; cbn in P0; tauto).
  assert (PC : forall k p, y_proc s k = PClient p -> p = CNone OK)
    by (intros k p E; specialize (P0 k); rewrite E in P0; exact P0).
  constructor.
  - rewrite N0. discriminate.
  - intros k c p E. destruct (PS _ _ _ E) as [-> C]. split; auto. split; [discriminate|exact I].
  - intros k p E. rewrite (PC _ _ E). exact I.
  - intros k k' c c' p p' o E1 E2 W. destruct (PS _ _ _ E1) as [-> _]. discriminate.
  - rewrite O0. cbn. lia.
  - intros k p o E. rewrite (PC _ _ E). intros [].
  - rewrite O0. cbn. lia.
  - intros k c o v E. destruct (PS _ _ _ E). discriminate.
Qed.

Lemma announced_good : forall s k o, Inv s -> announced (y_proc s k) o -> good (y_objs s) o.
Proof.
  intros s k o I (q & E & A). pose proof (i_cli s I k q E) as C.
  destruct q; try contradiction; cbn [cpinv] in C; try (subst; tauto).
  destruct o0; [|contradiction]. subst. auto.
Qed.
Lemma unlinked_lt : forall objs p o, cpinv objs p -> unlinked p o -> (o < length objs)%nat.
Proof.
  intros objs p o C U. destruct p; try contradiction; cbn [cpinv unlinked] in *; try (subst; unfold good in C; tauto).
  destruct o0; [|contradiction]. subst. apply C.
Qed.

Lemma evo_good : forall mo objs objs' o, evo mo objs objs' -> good objs o -> good objs' o /\ same4 (obj_at objs o) (obj_at objs' o).
Proof.
  intros mo objs objs' o [L E] [A B]. destruct (E o A) as [[Z M] | [[Z M] | (S1 & S2 & S4)]].
  - unfold settled in B; tauto.
  - unfold settled in B; tauto.
  - split; auto. split; auto. lia.
Qed.

Lemma inv_step : forall a s, honest a -> Inv s -> Inv (step a s).
Proof.
  intros [me i|] s HA I; [|contradiction]. cbn [step]. destruct (y_proc s me) as [c p|p] eqn:PM.
  - (* server *)
    destruct (sstep c me i (y_name s) (y_objs s) p) as [[n' os'] p'] eqn:R.
    destruct (i_srv s I me c p PM) as [SP CO].
    destruct (srv_step c me i _ _ p n' os' p' R SP (i_name s I)) as (EV & SP' & NW & ST & US & CN).
    set (s' := mkSys n' os' (set_proc s me (PServer c p'))).
    assert (PK : forall k, y_proc s' k = if Nat.eqb k me then PServer c p' else y_proc s k) by reflexivity.
    assert (LEN : (length (y_objs s) <= length os')%nat) by apply EV.
    assert (AN : forall k o, announced (y_proc s k) o -> announced (y_proc s' k) o).
    { intros k o A. rewrite PK. destruct (Nat.eqb_spec k me) as [->|]; auto. rewrite PM in A. destruct A as (q & X & _). discriminate. }
    change (Inv s'). constructor.
    + intros o E. change (y_objs s') with os' in *; change (y_name s') with n' in *. destruct NW as [(-> & -> & _)|(LE & [->| ->] & _)].
      * injection E as <-. rewrite app_length. cbn. lia.
      * rewrite LE. apply (i_name s I); auto.
      * discriminate.
    + intros k c0 p0 E. rewrite PK in E. destruct (Nat.eqb_spec k me) as [->|NE].
      * injection E as <- <-. auto.
      * destruct (i_srv s I k c0 p0 E) as [A B]. split; auto. apply (srv_stable (own p) (y_objs s)); auto.
        intros o W W'. apply NE. exact (i_own s I k me c0 c p0 p o E PM W W').
    + intros k p0 E. rewrite PK in E. destruct (Nat.eqb_spec k me) as [->|NE]; [discriminate|].
      apply (cli_stable (own p) (y_objs s)); auto. apply (i_cli s I k); auto.
    + assert (OWN : forall k c0 p0 o, k <> me -> y_proc s k = PServer c0 p0 -> own p0 = Some o -> own p' = Some o -> False).
      { intros k c0 p0 o NE E W W'. destruct NW as [(_ & _ & _ & X)|(_ & _ & [X|X])].
        - rewrite W' in X. injection X as ->. destruct (i_srv s I k c0 p0 E) as [[A _] _]. specialize (A _ W). lia.
        - rewrite W' in X. apply NE. exact (i_own s I k me c0 c p0 p o E PM W (eq_sym X)).
        - congruence. }
      intros k k' c0 c1 p0 p1 o E1 E2 W1 W2. rewrite PK in E1, E2.
      destruct (Nat.eqb_spec k me) as [->|NE]; destruct (Nat.eqb_spec k' me) as [->|NE']; auto.
      * injection E1 as <- <-. exfalso. eapply OWN; eauto.
      * injection E2 as <- <-. exfalso. eapply OWN; eauto.
      * apply (i_own s I k k' c0 c1 p0 p1 o); auto.
    + intros o L S. change (y_objs s') with os' in *; change (y_name s') with n' in *. destruct (Nat.lt_ge_cases o (length (y_objs s))) as [LO|GO].
      * destruct (ST o LO S) as [S0|F].
        -- destruct (i_made s I o LO S0) as (k & c0 & p0 & E & F).
           assert (F' : full c0 (obj_at os' o)) by (eapply same4_full; [|exact F]; apply (evo_good (own p) (y_objs s) os'); auto; split; auto).
           destruct (Nat.eq_dec k me) as [->|NE].
           ++ exists me, c, p'. rewrite PK, Nat.eqb_refl. rewrite PM in E. injection E as <- <-. auto.
           ++ exists k, c0, p0. rewrite PK. rewrite (proj2 (Nat.eqb_neq k me) NE). auto.
        -- exists me, c, p'. rewrite PK, Nat.eqb_refl. auto.
      * destruct NW as [(-> & _)|(LE & _)]; [|lia]. rewrite app_length in L. cbn in L. replace o with (length (y_objs s)) in S by lia.
        rewrite app_obj_new in S. elim S. reflexivity.
    + intros k p0 o E U. rewrite PK in E. destruct (Nat.eqb_spec k me) as [->|NE]; [discriminate|].
      pose proof (i_unl s I k p0 o E U) as X. change (y_objs s') with os' in *; change (y_name s') with n' in *.
      destruct NW as [(-> & -> & _)|(LE & [->| ->] & _)]; auto; [|discriminate].
      pose proof (unlinked_lt _ _ _ (i_cli s I k p0 E) U). intros [= Y]. lia.
    + intros o L S. change (y_objs s') with os' in *; change (y_name s') with n' in *. destruct (Nat.lt_ge_cases o (length (y_objs s))) as [LO|GO].
      * pose proof (US o LO S) as S0. destruct (i_user s I o LO S0) as [M|(k & A)].
        -- left. assert (G : good (y_objs s) o) by (split; auto; unfold settled; unfold hdr_at in S0; rewrite S0; discriminate).
           destruct (evo_good _ _ _ _ EV G) as [_ (_ & A & B & _)]. unfold hdr_at in *. rewrite A, B. auto.
        -- right. exists k. auto.
      * destruct NW as [(-> & _)|(LE & _)]; [|lia]. rewrite app_length in L. cbn in L. replace o with (length (y_objs s)) in S by lia.
        unfold hdr_at in S. rewrite app_obj_new in S. discriminate.
    + intros k c0 o v E. rewrite PK in E. destruct (Nat.eqb_spec k me) as [->|NE].
      * injection E as <- ->. destruct (CN o v eq_refl) as [-> | U3].
        -- destruct (i_conn s I me c o v PM) as (k & A). exists k; auto.
        -- destruct SP' as [B (S1 & F & _ & M)].
           destruct NW as [(_ & _ & _ & X)|(LE & _)].
           { cbn in X. injection X as X. subst o. unfold hdr_at, obj_at in U3. rewrite nth_overflow in U3 by lia. discriminate. }
           specialize (B o eq_refl). rewrite LE in B.
           destruct (i_user s I o B U3) as [M'|(k & A)]; [|exists k; auto].
           exfalso. assert (G : good (y_objs s) o) by (split; auto; unfold settled; unfold hdr_at in U3; rewrite U3; discriminate).
           destruct (evo_good _ _ _ _ EV G) as [_ (_ & A & B' & _)]. destruct F as (_ & F1 & F2 & _).
           unfold hdr_at in M'. rewrite <- A, <- B', F1, F2 in M'. congruence.
      * destruct (i_conn s I k c0 o v E) as (k' & A). exists k'; auto.
  - (* client *)
    destruct (cstep me i (y_name s) (y_objs s) p) as [[n' os'] p'] eqn:R.
    pose proof (i_cli s I me p PM) as CP.
    destruct (cli_step me i _ _ p n' os' p' R CP (i_name s I)) as (EV & CP' & LEN & NW & UL & ST & US & AK).
    set (s' := mkSys n' os' (set_proc s me (PClient p'))).
    assert (PK : forall k, y_proc s' k = if Nat.eqb k me then PClient p' else y_proc s k) by reflexivity.
    assert (AN : forall k o, announced (y_proc s k) o -> announced (y_proc s' k) o \/
                   mem_ok (h_req (hdr_at (y_objs s) o)) (h_resp (hdr_at (y_objs s) o)) = false).
    { intros k o A. rewrite PK. destruct (Nat.eqb_spec k me) as [->|]; auto. rewrite PM in A. auto. }
    change (Inv s'). constructor.
    + intros o E. change (y_objs s') with os' in *; change (y_name s') with n' in *. rewrite LEN. destruct NW as [->| ->]; [apply (i_name s I); auto|discriminate].
    + intros k c0 p0 E. rewrite PK in E. destruct (Nat.eqb_spec k me) as [->|NE]; [discriminate|].
      destruct (i_srv s I k c0 p0 E) as [A B]. split; auto. apply (srv_stable None (y_objs s)); auto. discriminate.
    + intros k p0 E. rewrite PK in E. destruct (Nat.eqb_spec k me) as [->|NE].
      * injection E as <-. auto.
      * apply (cli_stable None (y_objs s)); auto. apply (i_cli s I k); auto.
    + intros k k' c0 c1 p0 p1 o E1 E2 W1 W2. rewrite PK in E1, E2.
      destruct (Nat.eqb_spec k me) as [->|NE]; destruct (Nat.eqb_spec k' me) as [->|NE']; try discriminate.
      apply (i_own s I k k' c0 c1 p0 p1 o); auto.
    + intros o L S. change (y_objs s') with os' in *; change (y_name s') with n' in *. rewrite LEN in L. destruct (ST o L S) as [S0 S4].
      destruct (i_made s I o L S0) as (k & c0 & p0 & E & F). exists k, c0, p0. split.
      * rewrite PK. destruct (Nat.eqb_spec k me) as [->|NE]; [congruence|auto].
      * eapply same4_full; eauto.
    + intros k p0 o E U. rewrite PK in E. change (y_objs s') with os' in *; change (y_name s') with n' in *. destruct (Nat.eqb_spec k me) as [->|NE].
      * injection E as <-. destruct (UL o U) as [U0| ->]; [|discriminate].
        destruct NW as [->| ->]; [|discriminate]. apply (i_unl s I me p o); auto.
      * destruct NW as [->| ->]; [|discriminate]. apply (i_unl s I k p0 o); auto.
    + intros o L S. change (y_objs s') with os' in *; change (y_name s') with n' in *. rewrite LEN in L. destruct (US o L S) as [S0|A].
      * assert (G : good (y_objs s) o) by (split; auto; unfold settled; unfold hdr_at in S0; rewrite S0; discriminate).
        destruct (evo_good _ _ _ _ EV G) as [_ (_ & A1 & A2 & _)]. unfold hdr_at in *. rewrite A1, A2.
        destruct (i_user s I o L S0) as [M|(k & A)]; [auto|].
        destruct (AN k o A) as [A'|M]; [right; exists k; auto|auto].
      * right. exists me. rewrite PK, Nat.eqb_refl. auto.
    + intros k c0 o v E. rewrite PK in E. destruct (Nat.eqb_spec k me) as [->|NE]; [discriminate|].
      destruct (i_conn s I k c0 o v E) as (k' & A). destruct (AN k' o A) as [A'|M]; [exists k'; auto|].
      destruct (i_srv s I k c0 _ E) as [[_ (_ & (_ & F1 & F2 & _) & _ & M')] _].
      unfold hdr_at in M. rewrite F1, F2 in M. congruence.
Qed.

Lemma inv_run : forall acts s, Forall honest acts -> Inv s -> Inv (run acts s).
Proof.
  unfold run. induction acts as [|a acts IH]; intros s F I; cbn; auto. inversion F; subst. apply IH; auto. apply inv_step; auto.
Qed.
Lemma inv_reachable : forall s, reachable s -> Inv s.
Proof. intros s (s0 & acts & S & F & ->). apply inv_run; auto. apply inv_start; auto. Qed.

(** * The name, once gone, does not come back for the same object *)

Definition touched (p : proc) (o : nat) : Prop := opened p o \/ announced p o.

Lemma step_len : forall a s, (length (y_objs s) <= length (y_objs (step a s)))%nat.
Proof.
  intros [me i|o h] s; cbn [step].
  - destruct (y_proc s me) as [c p|p].
    + destruct (sstep c me i (y_name s) (y_objs s) p) as [[n os] p'] eqn:R. cbn [y_objs].
      destruct p, i; cbn [sstep] in R; repeat match type of R with context [if ?b then _ else _] => destruct b | context [match ?n with Some _ => _ | None => _ end] => destruct n end;
      injection R as <- <- <-; unfold set_hdr; rewrite ?set_obj_len, ?app_length; cbn; lia.
    + destruct (cstep me i (y_name s) (y_objs s) p) as [[n os] p'] eqn:R. cbn [y_objs].
      destruct p, i; cbn [cstep] in R; try destruct (y_name s); injection R as <- <- <-; unfold set_hdr; rewrite ?set_obj_len; lia.
  - cbn. unfold set_hdr. rewrite set_obj_len. lia.
Qed.

Lemma step_name : forall a s o, (o < length (y_objs s))%nat -> y_name s <> Some o -> y_name (step a s) <> Some o.
Proof.
  intros [me i|x h] s o L N; cbn [step].
  - destruct (y_proc s me) as [c p|p].
    + destruct (sstep c me i (y_name s) (y_objs s) p) as [[n os] p'] eqn:R. cbn [y_name].
      destruct p, i; cbn [sstep] in R;
      repeat match type of R with context [if ?b then _ else _] => destruct b | context [match y_name s with Some _ => _ | None => _ end] => destruct (y_name s) end;
      injection R as <- <- <-; try discriminate; auto.
      intros [= X]. lia.
    + destruct (cstep me i (y_name s) (y_objs s) p) as [[n os] p'] eqn:R. cbn [y_name].
      destruct p, i; cbn [cstep] in R; try destruct (y_name s); injection R as <- <- <-; try discriminate; auto.
  - auto.
Qed.

Lemma step_touched : forall a s o k, y_name s <> Some o ->
  touched (y_proc (step a s) k) o -> touched (y_proc s k) o.
Proof.
  intros [me i|x h] s o k N; cbn [step]; [|auto].
  destruct (y_proc s me) as [c p|p] eqn:PM.
  - destruct (sstep c me i (y_name s) (y_objs s) p) as [[n os] p'] eqn:R. unfold set_proc; cbn [y_proc].
    destruct (Nat.eqb_spec k me) as [->|NE]; auto. intros [(q & X & _)|(q & X & _)]; discriminate.
  - destruct (cstep me i (y_name s) (y_objs s) p) as [[n os] p'] eqn:R. unfold set_proc; cbn [y_proc].
    destruct (Nat.eqb_spec k me) as [->|NE]; auto. rewrite PM. intros T0.
    assert (T1 : match p' with
      | CNone _ | CDone None => False
      | CDone (Some o') | CStat o' | CMapHdr o' | CRdInit o' | CRd1 o' | CRd2 o' _ | CRd3 o' _ _ | CMap o' _ | CM1 o' _ | CM2 o' _ _
      | CM3 o' _ _ _ | CUnl o' _ _ _ _ | CPid o' _ _ _ _ | CSet o' _ _ _ _ | CCf1 o' _ _ _ _ | CCf2 o' _ _ _ _ _
      | CInit o' _ => o' = o end).
    { destruct T0 as [(q & [= <-] & X)|(q & [= <-] & X)]; destruct p' as [| | | | | | | | | | | | | | | | |[?|]]; cbn in X; try contradiction; auto. }
    clear T0. unfold touched, opened, announced.
    destruct p as [| | | | | | | | | | | | | | | | |oo], i; cbn [cstep] in R;
    repeat match type of R with context [if ?b then _ else _] => destruct b | context [match y_name s with Some _ => _ | None => _ end] => destruct (y_name s) end;
    injection R as <- <- <-; try contradiction; try congruence;
    try (left; eexists; split; [reflexivity|]; exact T1);
    try (right; eexists; split; [reflexivity|]; exact T1).
Qed.

Lemma run_touched : forall acts s o k, (o < length (y_objs s))%nat -> y_name s <> Some o ->
  touched (y_proc (run acts s) k) o -> touched (y_proc s k) o.
Proof.
  unfold run. induction acts as [|a acts IH]; intros s o k L N T0; cbn in *; auto.
  apply (step_touched a); auto. apply IH; auto.
  - pose proof (step_len a s). lia.
  - apply step_name; auto.
Qed.
Lemma run_name : forall acts s o, (o < length (y_objs s))%nat -> y_name s <> Some o -> y_name (run acts s) <> Some o.
Proof.
  unfold run. induction acts as [|a acts IH]; intros s o L N; cbn in *; auto.
  apply IH; [pose proof (step_len a s); lia|apply step_name; auto].
Qed.

(** * A process in use keeps its view whatever others write *)

Lemma step_view : forall a s k o v, uses (y_proc s k) o v -> a <> Act k Clean -> uses (y_proc (step a s) k) o v.
Proof.
  intros [me i|x h] s k o v U NC; cbn [step]; [|exact U].
  destruct (Nat.eq_dec k me) as [->|NE].
  - destruct i as [ok|]; [|congruence]. destruct U as [E|(c & [E|E])]; rewrite E; cbn [sstep cstep]; unfold set_proc; cbn [y_proc]; rewrite Nat.eqb_refl.
    + left; reflexivity.
    + destruct (_ =? I_USER); right; exists c; auto.
    + right; exists c; auto.
  - assert (Q : forall p n os, uses (y_proc (mkSys n os (set_proc s me p)) k) o v).
    { intros. unfold set_proc. cbn [y_proc]. rewrite (proj2 (Nat.eqb_neq k me) NE). exact U. }
    destruct (y_proc s me) as [c p|p]; [destruct (sstep c me i (y_name s) (y_objs s) p) as [[? ?] ?]|destruct (cstep me i (y_name s) (y_objs s) p) as [[? ?] ?]]; apply Q.
Qed.
Lemma run_view : forall acts s k o v, uses (y_proc s k) o v -> ~ In (Act k Clean) acts -> uses (y_proc (run acts s) k) o v.
Proof.
  unfold run. induction acts as [|a acts IH]; intros s k o v U NI; cbn in *; auto.
  apply IH; [|tauto]. apply step_view; auto.
Qed.

(** * One server and one client *)

Definition unlinkedb (q : cpc) : bool :=
  match q with CPid _ _ _ _ _ | CSet _ _ _ _ _ | CCf1 _ _ _ _ _ | CCf2 _ _ _ _ _ _ | CInit _ _ => true | _ => false end.
Definition announcedb (q : cpc) : bool :=
  match q with CCf1 _ _ _ _ _ | CCf2 _ _ _ _ _ _ | CInit _ _ => true | _ => false end.
Definition settledb (p : spc) : bool :=
  match p with SMap _ | SRd1 _ | SRd2 _ _ | SRd3 _ _ _ | SRd4 _ _ _ _ | SRd5 _ _ _ _ _ | SMapped _ _ | SInit _ _ => true | _ => false end.
Definition opens0 (q : cpc) : Prop :=
  match q with
  | CNone _ => True | CDone _ => False
  | CStat o' | CMapHdr o' | CRdInit o' | CRd1 o' | CRd2 o' _ | CRd3 o' _ _ | CMap o' _ | CM1 o' _ | CM2 o' _ _
  | CM3 o' _ _ _ | CUnl o' _ _ _ _ | CPid o' _ _ _ _ | CSet o' _ _ _ _ | CCf1 o' _ _ _ _ | CCf2 o' _ _ _ _ _
  | CInit o' _ => o' = O
  end.

Definition pairI (name : option nat) (objs : list obj) (p : spc) (q : cpc) : Prop :=
  match p with
  | SUnlink | SCreate => name = None /\ objs = [] /\ exists rc, q = CNone rc
  | SUnlinkFail | SFail _ | SDone _ => False
  | _ => own p = Some O /\ length objs = 1%nat /\ opens0 q /\ name = (if unlinkedb q then None else Some O) /\
         h_init (hdr_at objs 0) = (if announcedb q then 3 else if settledb p then 2 else 0)
  end.

Definition pairS (c : scfg) (s : sys) : Prop :=
  Inv s /\ exists p q, y_proc s 0 = PServer c p /\ y_proc s 1 = PClient q /\ pairI (y_name s) (y_objs s) p q.

Lemma pair_srv : forall c me name objs p q n' os' p', mem_ok (c_req c) (c_resp c) = true ->
  spinv c objs p -> pairI name objs p q -> sstep c me (Go true) name objs p = (n', os', p') -> pairI n' os' p' q.
Proof.
  intros c me name objs p q n' os' p' M [B SI] P R.
  destruct p; cbn [pairI] in P; try contradiction; cbn [sstep] in R.
  - injection R as <- <- <-. exact (conj eq_refl (proj2 P)).
  - destruct P as (-> & -> & (rc & ->)). cbn in R. injection R as <- <- <-. cbn. auto.
  - destruct P as ([= ->] & L & O0 & NN & HI). injection R as <- <- <-. cbn [pairI]. rewrite set_obj_len.
    repeat split; auto. unfold hdr_at in *. rewrite set_obj_same by lia. exact HI.
  - destruct P as ([= ->] & L & O0 & NN & HI). injection R as <- <- <-. cbn [pairI]. auto.
  - destruct P as ([= ->] & L & O0 & NN & HI). injection R as <- <- <-. cbn [pairI]. unfold set_hdr. rewrite set_obj_len.
    repeat split; auto. unfold hdr_at in *. rewrite set_obj_same by lia. exact HI.
  - destruct P as ([= ->] & L & O0 & NN & HI). injection R as <- <- <-. cbn [pairI]. unfold set_hdr. rewrite set_obj_len.
    repeat split; auto. unfold hdr_at in *. rewrite set_obj_same by lia. exact HI.
  - destruct P as ([= ->] & L & O0 & NN & HI). injection R as <- <- <-. cbn [pairI]. unfold set_hdr. rewrite set_obj_len.
    repeat split; auto. unfold hdr_at in *. rewrite set_obj_same by lia. exact HI.
  - destruct P as ([= ->] & L & O0 & NN & HI). injection R as <- <- <-. cbn [pairI]. unfold set_hdr. rewrite set_obj_len.
    repeat split; auto. unfold hdr_at in *. rewrite set_obj_same by lia. exact HI.
  - destruct P as ([= ->] & L & O0 & NN & HI). injection R as <- <- <-. cbn [pairI]. unfold set_hdr. rewrite set_obj_len.
    repeat split; auto. destruct SI as [Z _]. cbn [settledb] in HI. rewrite Z in HI. destruct (announcedb q) eqn:AQ; [discriminate|].
    unfold hdr_at in *. rewrite set_obj_same by lia. reflexivity.
  - destruct P as ([= ->] & L & O0 & NN & HI). injection R as <- <- <-. cbn [pairI]. auto.
  - destruct P as ([= ->] & L & O0 & NN & HI). injection R as <- <- <-. cbn [pairI]. auto.
  - destruct P as ([= ->] & L & O0 & NN & HI). injection R as <- <- <-. cbn [pairI]. auto.
  - destruct P as ([= ->] & L & O0 & NN & HI). injection R as <- <- <-. cbn [pairI]. auto.
  - destruct P as ([= ->] & L & O0 & NN & HI). injection R as <- <- <-. cbn [pairI]. auto.
  - destruct P as ([= ->] & L & O0 & NN & HI). destruct SI as (_ & (_ & F1 & F2 & _) & _ & _ & _ & ->). cbn zeta in R.
    unfold hdr_at in R. rewrite F2, M in R. injection R as <- <- <-. cbn [pairI]. auto.
  - destruct P as ([= ->] & L & O0 & NN & HI). injection R as <- <- <-. destruct (_ =? I_USER); cbn [pairI]; auto.
  - destruct P as ([= ->] & L & O0 & NN & HI). injection R as <- <- <-. cbn [pairI]. auto.
Qed.

Lemma pairI_late : forall name objs p q, pairI name objs p q ->
  (p = SUnlink \/ p = SCreate) /\ name = None /\ objs = [] /\ (exists rc, q = CNone rc) \/
  own p = Some O /\ length objs = 1%nat /\ opens0 q /\ name = (if unlinkedb q then None else Some O) /\
  h_init (hdr_at objs 0) = (if announcedb q then 3 else if settledb p then 2 else 0) /\
  (forall name' objs' q', length objs' = 1%nat -> opens0 q' -> name' = (if unlinkedb q' then None else Some O) ->
     h_init (hdr_at objs' 0) = (if announcedb q' then 3 else if settledb p then 2 else 0) -> pairI name' objs' p q').
Proof.
  intros name objs p q P. destruct p; cbn [pairI] in P; try contradiction; try (left; tauto); right; repeat split; try tauto; cbn [pairI]; auto; intros; tauto.
Qed.

Lemma pair_cli : forall c me name objs p q n' os' q', mem_ok (c_req c) (c_resp c) = true ->
  spinv c objs p -> cpinv objs q -> pairI name objs p q -> cstep me (Go true) name objs q = (n', os', q') -> pairI n' os' p q'.
Proof.
  intros c me name objs p q n' os' q' M SI CI P R.
  destruct (pairI_late _ _ _ _ P) as [(PP & -> & -> & (rc & ->))|(OW & L & O0 & NN & HI & K)].
  - cbn in R. injection R as <- <- <-. destruct PP as [-> | ->]; cbn; eauto.
  - destruct q; cbn [opens0] in O0; try contradiction; try subst o; cbn [unlinkedb announcedb] in *; cbn [cstep] in R.
    + subst name. injection R as <- <- <-. apply K; cbn; auto.
    + injection R as <- <- <-. destruct (_ =? 0); apply K; cbn; auto.
    + injection R as <- <- <-. apply K; cbn; auto.
    + injection R as <- <- <-. destruct (_ =? I_CREATOR) eqn:E; apply K; cbn; auto.
    + injection R as <- <- <-. apply K; cbn; auto.
    + injection R as <- <- <-. apply K; cbn; auto.
    + injection R as <- <- <-. apply K; cbn; auto.
    + injection R as <- <- <-. apply K; cbn; auto.
    + injection R as <- <- <-. apply K; cbn; auto.
    + injection R as <- <- <-. apply K; cbn; auto.
    + injection R as <- <- <-. apply K; cbn; auto.
    + injection R as <- <- <-. apply K; cbn; auto.
    + injection R as <- <- <-. apply K; cbn; auto. { unfold set_hdr. rewrite set_obj_len. auto. }
      unfold hdr_at, set_hdr in *. rewrite set_obj_same by lia. exact HI.
    + injection R as <- <- <-. apply K; cbn; auto. { unfold set_hdr. rewrite set_obj_len. auto. }
      unfold hdr_at, set_hdr in *. rewrite set_obj_same by lia. reflexivity.
    + injection R as <- <- <-. apply K; cbn; auto.
    + cbn zeta in R. injection R as <- <- <-. destruct CI as (_ & _ & _ & _ & _ & ->).
      assert (F : full c (obj_at objs 0)).
      { destruct SI as [_ SI]. destruct p; cbn in OW, SI; try discriminate; injection OW as ->; try tauto;
          (exfalso; assert (Z : h_init (hdr_at objs 0) = 0) by tauto; rewrite HI in Z; discriminate). }
      destruct F as (_ & F1 & F2 & _). unfold hdr_at. rewrite F1, F2, M. apply K; cbn; auto.
    + injection R as <- <- <-. exact P.
Qed.

Definition srank (p : spc) : nat :=
  match p with
  | SUnlink => 15 | SCreate => 14 | STrunc _ => 13 | SMapHdr _ => 12 | SWReq _ => 11 | SWResp _ => 10 | SWDma _ => 9
  | SWPid _ => 8 | SWInit _ => 7 | SMap _ => 6 | SRd1 _ => 5 | SRd2 _ _ => 4 | SRd3 _ _ _ => 3 | SRd4 _ _ _ _ => 2
  | SRd5 _ _ _ _ _ => 1 | _ => 0
  end.
Definition crank (q : cpc) : nat :=
  match q with
  | CNone _ => 16 | CStat _ => 15 | CMapHdr _ => 14 | CRdInit _ => 13 | CRd1 _ => 12 | CRd2 _ _ => 11 | CRd3 _ _ _ => 10
  | CMap _ _ => 9 | CM1 _ _ => 8 | CM2 _ _ _ => 7 | CM3 _ _ _ _ => 6 | CUnl _ _ _ _ _ => 5 | CPid _ _ _ _ _ => 4
  | CSet _ _ _ _ _ => 3 | CCf1 _ _ _ _ _ => 2 | CCf2 _ _ _ _ _ _ => 1 | _ => 0
  end.

Definition goS : action := Act 0 (Go true).
Definition goC : action := Act 1 (Go true).

Lemma pair_goS : forall c s p q, mem_ok (c_req c) (c_resp c) = true -> Inv s ->
  y_proc s 0 = PServer c p -> y_proc s 1 = PClient q -> pairI (y_name s) (y_objs s) p q ->
  exists p', Inv (step goS s) /\ y_proc (step goS s) 0 = PServer c p' /\ y_proc (step goS s) 1 = PClient q /\
    pairI (y_name (step goS s)) (y_objs (step goS s)) p' q /\ (srank p' <= srank p - 1)%nat.
Proof.
  intros c s p q M I P0 P1 PI.
  assert (IS : Inv (step goS s)) by (apply inv_step; [exact Logic.I|auto]).
  revert IS. unfold goS; cbn [step]. rewrite P0. destruct (sstep c 0 (Go true) (y_name s) (y_objs s) p) as [[n os] p'] eqn:R.
  intros IS. exists p'. split; auto. cbn [y_name y_objs y_proc]. unfold set_proc. cbn [Nat.eqb]. repeat split; auto.
  - eapply pair_srv; eauto. apply (i_srv s I 0%nat); auto.
  - destruct (i_srv s I 0%nat c p P0) as [[_ SI] _].
    destruct p; cbn [sstep] in R; try (injection R as <- <- <-; cbn [srank]; lia).
    + destruct PI as (NN & _). rewrite NN in R. injection R as <- <- <-. cbn [srank]. lia.
    + cbn zeta in R. match type of R with context [if ?b then _ else _] => destruct b end; injection R as <- <- <-; cbn [srank]; lia.
    + injection R as <- <- <-. destruct (_ =? I_USER); cbn [srank]; lia.
Qed.

Lemma pair_goC : forall c s p q, mem_ok (c_req c) (c_resp c) = true -> T c <> 0 -> Inv s ->
  y_proc s 0 = PServer c p -> y_proc s 1 = PClient q -> pairI (y_name s) (y_objs s) p q ->
  exists q', Inv (step goC s) /\ y_proc (step goC s) 0 = PServer c p /\ y_proc (step goC s) 1 = PClient q' /\
    pairI (y_name (step goC s)) (y_objs (step goC s)) p q' /\ (srank p = 0 -> crank q' <= crank q - 1)%nat.
Proof.
  intros c s p q M NZ I P0 P1 PI.
  assert (IS : Inv (step goC s)) by (apply inv_step; [exact Logic.I|auto]).
  revert IS. unfold goC; cbn [step]. rewrite P1. destruct (cstep 1 (Go true) (y_name s) (y_objs s) q) as [[n os] q'] eqn:R.
  destruct (i_srv s I 0%nat c p P0) as [SI _]. pose proof (i_cli s I 1%nat q P1) as CI.
  intros IS. exists q'. split; auto. cbn [y_name y_objs y_proc]. unfold set_proc. cbn [Nat.eqb]. repeat split; auto.
  - eapply pair_cli; eauto.
  - intros R0. destruct (pairI_late _ _ _ _ PI) as [([-> | ->] & _)|(OW & L & O0 & NN & HI & _)]; try discriminate.
    assert (ST : settledb p = true /\ full c (obj_at (y_objs s) 0)).
    { destruct SI as [_ SI]. destruct p; try discriminate; cbn in OW, SI; injection OW as ->; try (split; [reflexivity|tauto]). cbn in PI. contradiction. }
    destruct ST as [ST F]. rewrite ST in HI. pose proof F as (F0 & F1 & F2 & F3).
    destruct q; cbn [opens0] in O0; try contradiction; try subst o; cbn [unlinkedb announcedb] in *; cbn [cstep] in R;
      try (injection R as <- <- <-; cbn [crank]; lia).
    + rewrite NN in R. injection R as <- <- <-. cbn [crank]. lia.
    + injection R as <- <- <-. rewrite F0. fold (T c). rewrite (proj2 (N.eqb_neq _ _) NZ). cbn [crank]. lia.
    + injection R as <- <- <-. rewrite HI. cbn. lia.
    + cbn zeta in R. injection R as <- <- <-. destruct CI as (_ & _ & _ & _ & _ & ->). unfold hdr_at. rewrite F1, F2, M. cbn. lia.
Qed.

Lemma pair_runS : forall n c s p q, mem_ok (c_req c) (c_resp c) = true -> Inv s ->
  y_proc s 0 = PServer c p -> y_proc s 1 = PClient q -> pairI (y_name s) (y_objs s) p q -> (srank p <= n)%nat ->
  exists s' p', s' = run (repeat goS n) s /\ Inv s' /\ y_proc s' 0 = PServer c p' /\ y_proc s' 1 = PClient q /\
    pairI (y_name s') (y_objs s') p' q /\ srank p' = O.
Proof.
  induction n as [|n IH]; intros c s p q M I P0 P1 PI RK.
  - exists s, p. split; [reflexivity|]. do 4 (split; [auto|]). lia.
  - destruct (pair_goS c s p q M I P0 P1 PI) as (p' & I' & P0' & P1' & PI' & RK').
    destruct (IH c (step goS s) p' q M I' P0' P1' PI') as (s' & p'' & E & X); [lia|]. exists s', p''. split; [exact E|exact X].
Qed.
Lemma pair_runC : forall n c s p q, mem_ok (c_req c) (c_resp c) = true -> T c <> 0 -> Inv s ->
  y_proc s 0 = PServer c p -> y_proc s 1 = PClient q -> pairI (y_name s) (y_objs s) p q -> srank p = O -> (crank q <= n)%nat ->
  exists s' q', s' = run (repeat goC n) s /\ Inv s' /\ y_proc s' 0 = PServer c p /\ y_proc s' 1 = PClient q' /\
    pairI (y_name s') (y_objs s') p q' /\ crank q' = O.
Proof.
  induction n as [|n IH]; intros c s p q M NZ I P0 P1 PI SR RK.
  - exists s, q. split; [reflexivity|]. do 4 (split; [auto|]). lia.
  - destruct (pair_goC c s p q M NZ I P0 P1 PI) as (q' & I' & P0' & P1' & PI' & RK'). specialize (RK' SR).
    destruct (IH c (step goC s) p q' M NZ I' P0' P1' PI' SR) as (s' & q'' & E & X); [lia|]. exists s', q''. split; [exact E|exact X].
Qed.

Lemma pair_acts : forall acts c s p q, mem_ok (c_req c) (c_resp c) = true -> T c <> 0 -> Inv s ->
  y_proc s 0 = PServer c p -> y_proc s 1 = PClient q -> pairI (y_name s) (y_objs s) p q ->
  Forall (fun a => a = goS \/ a = goC) acts ->
  exists p' q', Inv (run acts s) /\ y_proc (run acts s) 0 = PServer c p' /\ y_proc (run acts s) 1 = PClient q' /\
    pairI (y_name (run acts s)) (y_objs (run acts s)) p' q'.
Proof.
  induction acts as [|a acts IH]; intros c s p q M NZ I P0 P1 PI F.
  - exists p, q. auto.
  - inversion F as [|x y [-> | ->] F']; subst.
    + destruct (pair_goS c s p q M I P0 P1 PI) as (p' & I' & P0' & P1' & PI' & _).
      exact (IH c (step goS s) p' q M NZ I' P0' P1' PI' F').
    + destruct (pair_goC c s p q M NZ I P0 P1 PI) as (q' & I' & P0' & P1' & PI' & _).
      exact (IH c (step goC s) p q' M NZ I' P0' P1' PI' F').
Qed.

Lemma total_nz : forall c, addressable c -> T c = 64 + c_req c + c_resp c + c_dma c.
Proof. intros c A. unfold T, total, H_SIZE. apply N.mod_small. exact A. Qed.
Lemma cview_layout : forall c, addressable c -> cview c = layout c.
Proof. intros c A. unfold cview, layout, mk_view. fold (T c). rewrite total_nz by auto. reflexivity. Qed.

Lemma run_app : forall a b s, run (a ++ b) s = run b (run a s).
Proof. intros. unfold run. apply fold_left_app. Qed.

Lemma pair_connects : forall s0 c acts, start s0 -> y_proc s0 0 = PServer c SUnlink -> y_proc s0 1 = PClient (CNone OK) ->
  mem_ok (c_req c) (c_resp c) = true -> addressable c -> Forall (fun a => a = goS \/ a = goC) acts ->
  let s := run (acts ++ repeat goS 15 ++ repeat goC 16 ++ [goS]) s0 in
  y_proc s 0 = PServer c (SInit 0 (layout c)) /\ y_proc s 1 = PClient (CInit 0 (layout c)).
Proof.
  intros s0 c acts ST P0 P1 M AD F. cbn zeta. rewrite !run_app.
  assert (NZ : T c <> 0) by (rewrite total_nz by auto; lia).
  pose proof (inv_start s0 ST) as I0. destruct ST as (N0 & O0 & _).
  assert (PI0 : pairI (y_name s0) (y_objs s0) SUnlink (CNone OK)) by (cbn; eauto).
  destruct (pair_acts acts c s0 _ _ M NZ I0 P0 P1 PI0 F) as (p1 & q1 & I1 & A1 & B1 & PI1).
  assert (R1 : (srank p1 <= 15)%nat) by (destruct p1; cbn; lia).
  destruct (pair_runS 15 c _ p1 q1 M I1 A1 B1 PI1 R1) as (s2 & p2 & E2 & I2 & A2 & B2 & PI2 & R2). rewrite <- E2.
  assert (R2' : (crank q1 <= 16)%nat) by (destruct q1; cbn; lia).
  destruct (pair_runC 16 c s2 p2 q1 M NZ I2 A2 B2 PI2 R2 R2') as (s3 & q3 & E3 & I3 & A3 & B3 & PI3 & R3). rewrite <- E3.
  destruct (pairI_late _ _ _ _ PI3) as [([-> | ->] & _)|(OW & L & OP & NN & HI & _)]; try discriminate.
  assert (Q3 : q3 = CInit 0 (layout c)).
  { destruct q3; try discriminate; cbn in OP; try contradiction. subst o. f_equal.
    destruct (i_cli s3 I3 1%nat _ B3) as [_ ->].
    destruct (i_srv s3 I3 0%nat c p2 A3) as [[_ SI] _].
    assert (FF : full c (obj_at (y_objs s3) 0)).
    { destruct p2; try discriminate; cbn in OW, SI, PI3; injection OW as ->; try tauto. }
    rewrite (full_cview c) by auto. apply cview_layout; auto. }
  subst q3. cbn [announcedb] in HI.
  assert (P3 : p2 = SMapped 0 (layout c) \/ p2 = SInit 0 (layout c)).
  { destruct (i_srv s3 I3 0%nat c p2 A3) as [[_ SI] _].
    destruct p2; try discriminate; cbn in OW, PI3; injection OW as ->; try contradiction;
      destruct SI as (_ & _ & -> & _); rewrite cview_layout by auto; auto. }
  unfold run. cbn [fold_left]. unfold goS. cbn [step]. rewrite A3. unfold set_proc.
  destruct P3 as [-> | ->]; cbn [sstep]; [rewrite HI; cbn [I_USER N.eqb Pos.eqb]|]; cbn [y_proc Nat.eqb]; auto.
Qed.

(** * DMA *)

Lemma load_store : forall dma size m a b x, load dma size (store dma size m a b) x = if x =? a then b else load dma size m x.
Proof.
  intros. unfold load, store, in_area. destruct (N.eqb_spec x a) as [->|NE].
  - destruct ((dma <=? a) && (a <? dma + size)) eqn:A; cbn; rewrite N.eqb_refl; reflexivity.
  - destruct ((dma <=? a) && (a <? dma + size)) eqn:A; destruct ((dma <=? x) && (x <? dma + size)) eqn:X; cbn; auto.
    + destruct (N.eqb_spec (x - dma) (a - dma)) as [E|]; auto.
      apply andb_prop in A as [A1 A2]. apply andb_prop in X as [X1 X2]. apply N.leb_le in A1, X1. lia.
    + destruct (N.eqb_spec x a); congruence.
Qed.

Lemma load_copy : forall dma size n m dst src i a,
  (forall j k, i <= j < i + N.of_nat n -> i <= k < i + N.of_nat n -> dst + j <> src + k) ->
  load dma size (copy dma size m dst src n i) a =
  if (dst + i <=? a) && (a <? dst + i + N.of_nat n) then load dma size m (src + (a - dst)) else load dma size m a.
Proof.
  induction n as [|n IH]; intros m dst src i a D.
  - cbn [copy]. destruct (N.leb_spec (dst + i) a); destruct (N.ltb_spec a (dst + i + N.of_nat 0)); cbn [andb]; auto. lia.
  - cbn [copy]. rewrite IH by (intros j k J K; apply D; lia). rewrite !load_store.
    destruct (N.leb_spec (dst + (i + 1)) a); destruct (N.ltb_spec a (dst + (i + 1) + N.of_nat n));
    destruct (N.leb_spec (dst + i) a); destruct (N.ltb_spec a (dst + i + N.of_nat (S n))); cbn [andb]; try lia.
    + destruct (N.eqb_spec (src + (a - dst)) (dst + i)) as [E|]; auto.
      exfalso. apply (D i (a - dst)); lia.
    + destruct (N.eqb_spec a (dst + i)); [lia|auto].
    + destruct (N.eqb_spec a (dst + i)) as [->|]; [|lia]. f_equal. lia.
    + destruct (N.eqb_spec a (dst + i)); [lia|auto].
Qed.
