(** Proofs about the caller's buffers. *)
From Verif Require Import ClDmaModel ClDmaSpec.
Local Open Scope N_scope.

(** ** Counting *)
Definition hit (d : dir) (a n : N) (d' : dir) (c l : N) : nat :=
  Nat.b2n (match d, d' with Rd, Rd | Wr, Wr => true | _, _ => false end && ((c =? a) && (l =? n))).
Definition o1 (d : dir) (a n : N) (x : ev) : nat :=
  match x with
  | Dma RdPre c l _ _ rc => if is_ok rc then hit d a n Rd c l else 0%nat
  | Dma WrPre c l _ _ rc => if is_ok rc then hit d a n Wr c l else 0%nat
  | _ => 0%nat
  end.
Definition c1 (d : dir) (a n : N) (x : ev) : nat :=
  match x with
  | Dma RdPost c l _ _ _ => hit d a n Rd c l
  | Dma WrPost c l _ _ _ => hit d a n Wr c l
  | _ => 0%nat
  end.
Lemma count_cons f x t : count f (x :: t) = (Nat.b2n (f x) + count f t)%nat.
Proof. unfold count. cbn [filter]. now destruct (f x). Qed.
Lemma opened_cons d a n x t : opened d a n (x :: t) = (o1 d a n x + opened d a n t)%nat.
Proof.
  unfold opened. rewrite count_cons. f_equal. unfold opening, o1, hit.
  destruct d, x as [[]|? ? ? ?|? ?|? ? ?]; try reflexivity; try destruct (is_ok rc);
    rewrite ?andb_true_r, ?andb_false_r, ?andb_true_l, ?andb_false_l; reflexivity.
Qed.
Lemma closed_cons d a n x t : closed d a n (x :: t) = (c1 d a n x + closed d a n t)%nat.
Proof.
  unfold closed. rewrite count_cons. f_equal. unfold closing, c1, hit.
  destruct d, x as [[]|? ? ? ?|? ?|? ? ?]; reflexivity.
Qed.
Lemma count_app f l1 l2 : count f (l1 ++ l2) = (count f l1 + count f l2)%nat.
Proof. unfold count. now rewrite filter_app, app_length. Qed.
Lemma count_rev f l : count f (rev l) = count f l.
Proof.
  induction l as [|x l IH]; [reflexivity|]. cbn [rev]. rewrite count_app, count_cons, IH.
  rewrite count_cons. change (count f []) with 0%nat. lia.
Qed.
Lemma opened_ev d a n s : opened d a n (events s) = opened d a n (tr s).
Proof. apply count_rev. Qed.
Lemma closed_ev d a n s : closed d a n (events s) = closed d a n (tr s).
Proof. apply count_rev. Qed.

(** Nothing closed that was not open, with the newest event first. *)
Fixpoint fine (t : list ev) : Prop :=
  match t with
  | [] => True
  | x :: r => (forall d a n, closed d a n t <= opened d a n t)%nat /\ fine r
  end.
Lemma fine_le t : fine t -> forall d a n, (closed d a n t <= opened d a n t)%nat.
Proof. destruct t; cbn [fine]; [reflexivity|tauto]. Qed.
Lemma fine_skip k t : fine t -> fine (skipn k t).
Proof. revert t. induction k as [|k IH]; intros [|x t]; cbn [skipn fine]; try tauto. intros [_ H]. auto. Qed.
Lemma fine_none_extra s : fine (tr s) -> none_extra s.
Proof.
  intros H k d a n. unfold events.
  replace (firstn k (rev (tr s))) with (rev (skipn (length (tr s) - k) (tr s))).
  - unfold closed, opened. rewrite !count_rev. apply fine_le, fine_skip, H.
  - rewrite <- (rev_involutive (tr s)) at 1 2. rewrite rev_length.
    rewrite skipn_rev, rev_involutive, rev_length.
    destruct (Nat.le_gt_cases k (length (tr s))) as [L|L].
    + now replace (length (tr s) - (length (tr s) - k))%nat with k by lia.
    + replace (length (tr s) - k)%nat with 0%nat by lia.
      rewrite Nat.sub_0_r. rewrite !firstn_all2; rewrite ?rev_length; try lia. reflexivity.
Qed.

(** ** What the record says is open *)
Definition one (d : dir) (x c n : N) : list (dir * N * N * N) := if 0 <? n then [(d, x, c, n)] else [].
Definition dir_of (o : N) : dir := if o =? 1 then Rd else Wr.
Definition wins (k : kind) (u : words) : list (dir * N * N * N) :=
  match k with
  | KRng => one Wr (w0 u) (w1 u) (w2 u)
  | KAes => one Rd (w0 u) (w1 u) (w2 u) ++ one Wr (w3 u) (w4 u) (w5 u)
  | KGcm => one Rd (w0 u) (w1 u) (w2 u) ++ one Wr (w3 u) (w4 u) (w5 u) ++ one Rd (w6 u) (w7 u) (w8 u)
  | KCmac | KSha => one Rd (w0 u) (w1 u) (w2 u)
  | KBuf => one (dir_of (w3 u)) (w0 u) (w1 u) (w2 u)
  | KNvmAdd => one (dir_of (w3 u)) (w0 u) (w1 u) (w2 u) ++ one (dir_of (w7 u)) (w4 u) (w5 u) (w6 u)
  | KPlain => []
  end.
Definition codes (k : kind) (u : words) : Prop :=
  match k with
  | KBuf => 0 < w2 u -> w3 u = 1 \/ w3 u = 3
  | KNvmAdd => (0 < w2 u -> w3 u = 1 \/ w3 u = 3) /\ (0 < w6 u -> w7 u = 1 \/ w7 u = 3)
  | _ => True
  end.
Fixpoint hits (d : dir) (a n : N) (l : list (dir * N * N * N)) : nat :=
  match l with
  | [] => 0%nat
  | (d', _, c, m) :: r => (hit d a n d' c m + hits d a n r)%nat
  end.
Lemma hits_app d a n l1 l2 : hits d a n (l1 ++ l2) = (hits d a n l1 + hits d a n l2)%nat.
Proof. induction l1 as [|[[[? ?] ?] ?] l1 IH]; cbn [app hits]; [reflexivity|]. rewrite IH. lia. Qed.
Lemma hit_refl d a n : hit d a n d a n = 1%nat.
Proof. unfold hit. rewrite !N.eqb_refl. now destruct d. Qed.
Lemma hits_in d x a n l : In (d, x, a, n) l -> (1 <= hits d a n l)%nat.
Proof.
  induction l as [|[[[d' x'] c] m] l IH]; [intros []|]. intros [E|H]; cbn [hits].
  - injection E as -> -> -> ->. rewrite hit_refl. lia.
  - specialize (IH H). lia.
Qed.

(** Open are just the buffers [W]. *)
Definition bal (W : list (dir * N * N * N)) (t : list ev) : Prop :=
  forall d a n, opened d a n t = (closed d a n t + hits d a n W)%nat.
(** The buffers told to the server are among [W] and were opened with that address. *)
Definition told (W : list (dir * N * N * N)) (t : list ev) : Prop :=
  forall b, waiting t = Some b -> forall d x n, In (d, x, n) b -> 0 < n ->
  exists c cb, In (d, x, c, n) W /\ In (Dma (pre_of d) c n x cb OK) t.

Record inv (D : Prop) (s : st) : Prop := mkInv {
  i_fine : fine (tr s);
  i_idle : pend s = false -> w2 (un s) = 0 /\ bal [] (tr s);
  i_pend : pend s = true ->
    let W := wins (last_sent (tr s)) (un s) in
    bal W (tr s) /\ (D -> told W (tr s)) /\ codes (last_sent (tr s)) (un s) /\
    (last_sent (tr s) = KPlain -> w2 (un s) = 0) /\ (waiting (tr s) = None -> W = []) }.

Lemma inv_start D : inv D start.
Proof. split; cbn; [exact I| |discriminate]. intros _. split; [reflexivity|]. intros d a n. reflexivity. Qed.

(** ** The primitive steps *)
Lemma recv_cases e s r s1 : recv e s = (r, s1) ->
  (pend s = false /\ r = NOTREADY /\ s1 = s) \/
  (pend s = true /\ exists a, s1 = mkSt (pend s1) (un s) (Got a r :: tr s) /\
     (r = NOTREADY -> pend s1 = true) /\ (r = OK -> a = Reply true true /\ pend s1 = false)).
Proof.
  unfold recv. destruct (pend s); cbn [negb]; [|intros E; injection E as <- <-; left; auto].
  intros E. right. split; [reflexivity|]. exists (e_recv e (tr s)).
  assert (T : forall x, (x <? 0)%Z = true -> x = OK -> False) by (intros x Hx ->; discriminate).
  destruct (e_recv e (tr s)) as [rc| | | |f sm].
  - destruct (is_ok rc) eqn:OKE; cbv zeta in E.
    + change ((NOTREADY =? ABORTED)%Z) with false in E. change ((NOTREADY =? NOTREADY)%Z) with true in E.
      cbv iota in E.
      destruct (0 <? e_timer e (tr s))%Z; [|destruct (e_timer e (tr s) <? 0)%Z eqn:X];
        injection E as <- <-; cbn [pend un tr]; split; auto; split; auto; try discriminate.
      intros H. destruct (T _ X H).
    + destruct (rc =? ABORTED)%Z eqn:A.
      * injection E as <- <-; cbn [pend un tr]; split; auto; split; discriminate.
      * destruct (rc =? NOTREADY)%Z.
        -- destruct (0 <? e_timer e (tr s))%Z; [|destruct (e_timer e (tr s) <? 0)%Z eqn:X];
             injection E as <- <-; cbn [pend un tr]; split; auto; split; auto; try discriminate.
           intros H. destruct (T _ X H).
        -- injection E as <- <-; cbn [pend un tr]; split; auto; split; auto. intros ->. discriminate OKE.
  - injection E as <- <-; cbn [pend un tr]; split; auto; split; discriminate.
  - injection E as <- <-; cbn [pend un tr]; split; auto; split; discriminate.
  - injection E as <- <-; cbn [pend un tr]; split; auto; split; auto; discriminate.
  - injection E as <- <-; cbn [pend un tr]; split; [reflexivity|]. destruct f, sm; split; auto; discriminate.
Qed.

(** One more event that opens and closes nothing. *)
Definition quiet (x : ev) : Prop := forall d a n, o1 d a n x = 0%nat /\ c1 d a n x = 0%nat.
Lemma bal_quiet W x t : quiet x -> bal W t -> bal W (x :: t).
Proof. intros Q B d a n. rewrite opened_cons, closed_cons. destruct (Q d a n) as [-> ->]. apply B. Qed.
Lemma fine_bal W x t : bal W (x :: t) -> fine t -> fine (x :: t).
Proof. intros B F. split; [|exact F]. intros d a n. rewrite (B d a n). lia. Qed.
Lemma fine_quiet x t : quiet x -> fine t -> fine (x :: t).
Proof.
  intros Q F. split; [|exact F]. intros d a n. rewrite opened_cons, closed_cons.
  destruct (Q d a n) as [-> ->]. apply (fine_le _ F).
Qed.
Lemma quiet_got a r : quiet (Got a r). Proof. intros ? ? ?; split; reflexivity. Qed.
Lemma quiet_ext k r v : quiet (Ext k r v). Proof. intros ? ? ?; split; reflexivity. Qed.
Lemma quiet_sent k b r x : quiet (Sent k b r x). Proof. intros ? ? ?; split; reflexivity. Qed.
Lemma quiet_refused d c l x cb rc : is_ok rc = false -> quiet (Dma (pre_of d) c l x cb rc).
Proof. intros E [] a n; destruct d; cbn [pre_of o1 c1]; rewrite E; auto. Qed.
Lemma bal_open W d c l x cb rc t : is_ok rc = true -> bal W t ->
  bal (W ++ [(d, x, c, l)]) (Dma (pre_of d) c l x cb rc :: t).
Proof.
  intros E B d' a n. rewrite opened_cons, closed_cons, hits_app, (B d' a n). cbn [hits].
  destruct d; cbn [pre_of o1 c1]; rewrite E; lia.
Qed.
Lemma bal_close W d c l x x' cb rc t : bal ((d, x', c, l) :: W) t ->
  bal W (Dma (post_of d) c l x cb rc :: t).
Proof.
  intros B d' a n. rewrite opened_cons, closed_cons, (B d' a n). cbn [hits].
  destruct d; cbn [post_of o1 c1]; lia.
Qed.
Lemma bal_perm W W' t : (forall d a n, hits d a n W = hits d a n W') -> bal W t -> bal W' t.
Proof. intros P B d a n. now rewrite (B d a n), P. Qed.

(** ** Closing after a reply *)
(** After the closing part of a Response of kind [k]. *)
Definition closed_down (k : kind) (s s1 : st) : Prop :=
  pend s1 = pend s /\ fine (tr s1) /\ bal [] (tr s1) /\ wins k (un s1) = [] /\ w2 (un s1) = 0 /\
  last_sent (tr s1) = last_sent (tr s) /\ waiting (tr s1) = waiting (tr s).
Definition closes (k : kind) (f : Z -> M Z) : Prop :=
  forall e s r r1 s1, fine (tr s) -> bal (wins k (un s)) (tr s) -> codes k (un s) ->
  (k = KPlain -> w2 (un s) = 0) ->
  f r e s = (r1, s1) -> closed_down k s s1.

Lemma dma_step op c l e s : exists rc x cb,
  dma op c l e s = ((rc, x), mkSt (pend s) (un s) (Dma op c l x cb rc :: tr s)).
Proof. unfold dma. destruct (process_addr _ _ _ _ _) as [rc x]. do 3 eexists. reflexivity. Qed.
Lemma ext_step k e s : exists rc v,
  ext2 k e s = ((rc, v), mkSt (pend s) (un s) (Ext k rc v :: tr s)).
Proof. unfold ext2. destruct (e_ext e (tr s) k) as [rc v]. do 2 eexists. reflexivity. Qed.
Lemma ext_step1 k e s : exists rc v,
  ext k e s = (rc, mkSt (pend s) (un s) (Ext k rc v :: tr s)).
Proof. unfold ext, bind. destruct (ext_step k e s) as (rc & v & ->). do 2 eexists. reflexivity. Qed.

(** [s1] is [s] with one more buffer closed and the record changed to [u]. *)
Definition shut (u : words) (W : list (dir * N * N * N)) (s s1 : st) : Prop :=
  pend s1 = pend s /\ un s1 = u /\ fine (tr s1) /\ bal W (tr s1) /\
  last_sent (tr s1) = last_sent (tr s) /\ waiting (tr s1) = waiting (tr s).

Lemma close_a_ok d e s W : fine (tr s) -> bal (one d (w0 (un s)) (w1 (un s)) (w2 (un s)) ++ W) (tr s) ->
  shut (done_a (un s)) W s (snd (close_a d e s)).
Proof.
  intros F B. unfold close_a, post, bind, get, set, ret, one in *; cbv beta iota in *.
  destruct (0 <? w2 (un s)) eqn:Z; cbn [app] in B.
  - destruct (dma_step (post_of d) (w1 (un s)) (w2 (un s)) e s) as (rc & x & cb & ->).
    cbn [snd pend un tr]. unfold shut. cbn [pend un tr].
    pose proof (bal_close W d _ _ x _ cb rc _ B) as B2.
    split; [reflexivity|]. split; [reflexivity|]. split; [apply (fine_bal W); auto|].
    split; [exact B2|]. split; reflexivity.
  - cbn [snd]. unfold shut. split; [reflexivity|]. split; [|auto].
    destruct (un s); unfold done_a, put_a; cbn in *. f_equal. apply N.ltb_ge in Z. lia.
Qed.
Lemma close_b_ok d e s W : fine (tr s) -> bal (one d (w3 (un s)) (w4 (un s)) (w5 (un s)) ++ W) (tr s) ->
  shut (done_b (un s)) W s (snd (close_b d e s)).
Proof.
  intros F B. unfold close_b, post, bind, get, set, ret, one in *; cbv beta iota in *.
  destruct (0 <? w5 (un s)) eqn:Z; cbn [app] in B.
  - destruct (dma_step (post_of d) (w4 (un s)) (w5 (un s)) e s) as (rc & x & cb & ->).
    cbn [snd pend un tr]. unfold shut. cbn [pend un tr].
    pose proof (bal_close W d _ _ x _ cb rc _ B) as B2.
    split; [reflexivity|]. split; [reflexivity|]. split; [apply (fine_bal W); auto|].
    split; [exact B2|]. split; reflexivity.
  - cbn [snd]. unfold shut. split; [reflexivity|]. split; [|auto].
    destruct (un s); unfold done_b, put_b; cbn in *. f_equal. apply N.ltb_ge in Z. lia.
Qed.
Lemma close_c_ok d e s W : fine (tr s) -> bal (one d (w6 (un s)) (w7 (un s)) (w8 (un s)) ++ W) (tr s) ->
  shut (done_c (un s)) W s (snd (close_c d e s)).
Proof.
  intros F B. unfold close_c, post, bind, get, set, ret, one in *; cbv beta iota in *.
  destruct (0 <? w8 (un s)) eqn:Z; cbn [app] in B.
  - destruct (dma_step (post_of d) (w7 (un s)) (w8 (un s)) e s) as (rc & x & cb & ->).
    cbn [snd pend un tr]. unfold shut. cbn [pend un tr].
    pose proof (bal_close W d _ _ x _ cb rc _ B) as B2.
    split; [reflexivity|]. split; [reflexivity|]. split; [apply (fine_bal W); auto|].
    split; [exact B2|]. split; reflexivity.
  - cbn [snd]. unfold shut. split; [reflexivity|]. split; [|auto].
    destruct (un s); unfold done_c, put_c; cbn in *. f_equal. apply N.ltb_ge in Z. lia.
Qed.
Lemma op_dir o : o = 1 \/ o = 3 -> op_of o = post_of (dir_of o).
Proof. intros [->| ->]; reflexivity. Qed.
Lemma put_m_zero u : w2 u = 0 -> w2 (put_m 0 0 0 0 u) = 0. Proof. reflexivity. Qed.
Lemma post_m_ok e s W : fine (tr s) ->
  bal (one (dir_of (w3 (un s))) (w0 (un s)) (w1 (un s)) (w2 (un s)) ++ W) (tr s) ->
  (0 < w2 (un s) -> w3 (un s) = 1 \/ w3 (un s) = 3) ->
  let s1 := snd (post_m e s) in
  w2 (un s1) = 0 /\ w4 (un s1) = w4 (un s) /\ w5 (un s1) = w5 (un s) /\ w6 (un s1) = w6 (un s) /\
  w7 (un s1) = w7 (un s) /\ w8 (un s1) = w8 (un s) /\ shut (un s1) W s s1.
Proof.
  intros F B C. unfold post_m, async_post, bind, get, set, ret, one in *; cbv beta iota in *.
  destruct (w2 (un s) =? 0) eqn:Z; [apply N.eqb_eq in Z|apply N.eqb_neq in Z].
  - rewrite Z in B. cbn [N.ltb N.compare app] in B. cbn [snd]. unfold shut. cbn [app] in B. auto 15.
  - replace (0 <? w2 (un s)) with true in B by (symmetry; apply N.ltb_lt; lia). cbn [app] in B.
    rewrite (op_dir _ (C ltac:(lia))).
    destruct (dma_step (post_of (dir_of (w3 (un s)))) (w1 (un s)) (w2 (un s)) e s) as (rc & x & cb & ->).
    cbn [snd pend un tr put_m w2 w4 w5 w6 w7 w8]. unfold shut. cbn [pend un tr].
    pose proof (bal_close W _ _ _ x _ cb rc _ B) as B2.
    assert (F2 : fine (Dma (post_of (dir_of (w3 (un s)))) (w1 (un s)) (w2 (un s)) x cb rc :: tr s))
      by (apply (fine_bal W); auto).
    auto 15.
Qed.
Lemma post_d_ok e s W : fine (tr s) ->
  bal (one (dir_of (w7 (un s))) (w4 (un s)) (w5 (un s)) (w6 (un s)) ++ W) (tr s) ->
  (0 < w6 (un s) -> w7 (un s) = 1 \/ w7 (un s) = 3) ->
  let s1 := snd (post_d e s) in
  w6 (un s1) = 0 /\ w0 (un s1) = w0 (un s) /\ w1 (un s1) = w1 (un s) /\ w2 (un s1) = w2 (un s) /\
  w3 (un s1) = w3 (un s) /\ w8 (un s1) = w8 (un s) /\ shut (un s1) W s s1.
Proof.
  intros F B C. unfold post_d, async_post, bind, get, set, ret, one in *; cbv beta iota in *.
  destruct (w6 (un s) =? 0) eqn:Z; [apply N.eqb_eq in Z|apply N.eqb_neq in Z].
  - rewrite Z in B. cbn [N.ltb N.compare app] in B. cbn [snd]. unfold shut. cbn [app] in B. auto 15.
  - replace (0 <? w6 (un s)) with true in B by (symmetry; apply N.ltb_lt; lia). cbn [app] in B.
    rewrite (op_dir _ (C ltac:(lia))).
    destruct (dma_step (post_of (dir_of (w7 (un s)))) (w5 (un s)) (w6 (un s)) e s) as (rc & x & cb & ->).
    cbn [snd pend un tr put_d w0 w1 w2 w3 w6 w8]. unfold shut. cbn [pend un tr].
    pose proof (bal_close W _ _ _ x _ cb rc _ B) as B2.
    assert (F2 : fine (Dma (post_of (dir_of (w7 (un s)))) (w5 (un s)) (w6 (un s)) x cb rc :: tr s))
      by (apply (fine_bal W); auto).
    auto 15.
Qed.

Lemma shut_closed_down k s s1 u : shut u [] s s1 -> wins k u = [] -> w2 u = 0 -> closed_down k s s1.
Proof. intros (P & <- & F & B & L & X) H H2. unfold closed_down. auto 10. Qed.
Lemma shut_trans s s1 s2 u u2 W W2 : shut u W s s1 -> shut u2 W2 s1 s2 -> shut u2 W2 s s2.
Proof.
  intros (P & U & F & B & L & X) (P2 & U2 & F2 & B2 & L2 & X2). unfold shut.
  rewrite P2, L2, X2. auto 10.
Qed.
Ltac run_in H m := let r := fresh "r" in let s := fresh "s" in
  let E := fresh "E" in destruct m as [r s] eqn:E; cbn [snd] in H.

Lemma closes_a k d : wins k = (fun u => one d (w0 u) (w1 u) (w2 u)) ->
  closes k (fun r => close_a d;;; ret r).
Proof.
  intros K e s r r1 s1 F B _ _. rewrite K in B. unfold bind, ret.
  rewrite <- (app_nil_r (one d _ _ _)) in B.
  pose proof (close_a_ok d e s [] F B) as H. destruct (close_a d e s) as [[] sa]. cbn [snd] in H.
  intros E. injection E as <- <-. apply (shut_closed_down _ _ _ _ H); [rewrite K|]; reflexivity.
Qed.
Lemma closes_aes : closes KAes (fun r => close_a Rd;;; close_b Wr;;; ret r).
Proof.
  intros e s r r1 s1 F B _ _. cbn [wins] in B. unfold bind, ret.
  pose proof (close_a_ok Rd e s _ F B) as H. destruct (close_a Rd e s) as [[] sa]. cbn [snd] in H.
  pose proof H as (P & U & F2 & B2 & _).
  pose proof (close_b_ok Wr e sa [] F2) as H2.
  rewrite app_nil_r, U in H2. specialize (H2 B2). destruct (close_b Wr e sa) as [[] sb]. cbn [snd] in H2.
  intros E. injection E as <- <-.
  apply (shut_closed_down _ _ _ _ (shut_trans _ _ _ _ _ _ _ H H2)); reflexivity.
Qed.
Lemma closes_gcm : closes KGcm (fun r => close_a Rd;;; close_b Wr;;; close_c Rd;;; ret r).
Proof.
  intros e s r r1 s1 F B _ _. cbn [wins] in B. unfold bind, ret.
  pose proof (close_a_ok Rd e s _ F B) as H. destruct (close_a Rd e s) as [[] sa]. cbn [snd] in H.
  pose proof H as (P & U & F2 & B2 & _).
  pose proof (close_b_ok Wr e sa (one Rd (w6 (un s)) (w7 (un s)) (w8 (un s))) F2) as H2.
  rewrite U in H2. specialize (H2 B2). destruct (close_b Wr e sa) as [[] sb]. cbn [snd] in H2.
  pose proof H2 as (P3 & U3 & F3 & B3 & _).
  pose proof (close_c_ok Rd e sb [] F3) as H3.
  rewrite app_nil_r, U3 in H3. specialize (H3 B3). destruct (close_c Rd e sb) as [[] sc]. cbn [snd] in H3.
  intros E. injection E as <- <-.
  apply (shut_closed_down _ _ _ _ (shut_trans _ _ _ _ _ _ _ H (shut_trans _ _ _ _ _ _ _ H2 H3))); reflexivity.
Qed.
Lemma closes_buf g : closes KBuf (fun r => r2 <- post_m;; ret (g r r2)).
Proof.
  intros e s r r1 s1 F B C _. cbn [wins codes] in *. unfold bind, ret.
  rewrite <- (app_nil_r (one _ _ _ _)) in B.
  pose proof (post_m_ok e s [] F B C) as H. destruct (post_m e s) as [rp sa]. cbn [snd] in H.
  destruct H as (Z & _ & _ & _ & _ & _ & H).
  intros E. injection E as <- <-. apply (shut_closed_down _ _ _ _ H); [|exact Z].
  cbn [wins]. rewrite Z. reflexivity.
Qed.
Lemma closes_nvm_add : closes KNvmAdd (fun r => post_d;;; post_m;;; ret r).
Proof.
  intros e s r r1 s1 F B [C C2] _. cbn [wins] in *. unfold bind, ret.
  set (Wm := one (dir_of (w3 (un s))) (w0 (un s)) (w1 (un s)) (w2 (un s))) in *.
  assert (B' : bal (one (dir_of (w7 (un s))) (w4 (un s)) (w5 (un s)) (w6 (un s)) ++ Wm) (tr s)).
  { eapply bal_perm; [|exact B]. intros. rewrite !hits_app. lia. }
  pose proof (post_d_ok e s Wm F B' C2) as H. destruct (post_d e s) as [rp sa]. cbn [snd] in H.
  destruct H as (Z & E0 & E1 & E2 & E3 & E8 & H). pose proof H as (P & _ & F2 & B2 & _).
  pose proof (post_m_ok e sa [] F2) as H2. rewrite app_nil_r, E0, E1, E2, E3 in H2.
  specialize (H2 B2 C). destruct (post_m e sa) as [rq sb]. cbn [snd] in H2.
  destruct H2 as (Z2 & _ & _ & E6 & _ & _ & H2).
  intros E. injection E as <- <-.
  apply (shut_closed_down _ _ _ _ (shut_trans _ _ _ _ _ _ _ H H2)); [|exact Z2].
  cbn [wins]. rewrite Z2, E6, Z. reflexivity.
Qed.
Lemma closes_plain : closes KPlain (fun r => ret r).
Proof.
  intros e s r r1 s1 F B _ Z E. injection E as <- <-.
  apply (shut_closed_down _ _ _ (un s)); [unfold shut; auto 10|reflexivity|auto].
Qed.

(** ** Responses *)
Lemma inv_closed D s : fine (tr s) -> bal [] (tr s) -> w2 (un s) = 0 ->
  (pend s = true -> wins (last_sent (tr s)) (un s) = [] /\ waiting (tr s) = None) -> inv D s.
Proof.
  intros F B Z H. split; [exact F|auto|]. intros P. destruct (H P) as [W X]. cbn zeta. rewrite W.
  split; [exact B|]. split; [intros _ b E; congruence|]. split; [|auto].
  destruct (last_sent (tr s)); cbn [codes wins] in *; try exact I.
  - rewrite Z. intros L; lia.
  - split; [rewrite Z; intros L; lia|]. intros L. exfalso.
    unfold one in W. rewrite Z in W. replace (0 <? w6 (un s)) with true in W by (symmetry; now apply N.ltb_lt).
    discriminate W.
Qed.
(** Steps that neither open nor close nor send nor receive. *)
Lemma inv_ext D s k rc v : inv D s -> inv D (mkSt (pend s) (un s) (Ext k rc v :: tr s)).
Proof.
  intros [F I P]. split; cbn [pend un tr].
  - apply fine_quiet; [apply quiet_ext|exact F].
  - intros H. destruct (I H). split; [assumption|]. apply bal_quiet; [apply quiet_ext|assumption].
  - intros H. destruct (P H) as (B & T & C & Z). cbn zeta in *. cbn [last_sent].
    split; [apply bal_quiet; [apply quiet_ext|exact B]|]. split; [|auto].
    intros HD b E d x n Hb Hn. cbn [waiting] in E. destruct (T HD b E d x n Hb Hn) as (c & cb & H1 & H2).
    exists c, cb. split; [exact H1|now right].
Qed.
Lemma early_inv D k m e s r s1 : (forall s0 r0 s2, inv D s0 -> pend s0 = pend s -> last_sent (tr s0) = last_sent (tr s) ->
    m e s0 = (r0, s2) -> inv D s2) ->
  inv D s -> early k m e s = (r, s1) -> inv D s1.
Proof.
  intros M I. unfold early, bind, ret. destruct (ext_step k e s) as (rc & v & ->). cbn [fst snd].
  pose proof (inv_ext D s k rc v I) as I2. destruct (v =? 0).
  - intros E. eapply M; [exact I2|reflexivity|reflexivity|exact E].
  - intros E. injection E as <- <-. exact I2.
Qed.
Lemma early_keep D k m e s r s1 : (forall s0 r0 s2, inv D s0 -> m e s0 = (r0, s2) -> inv D s2) ->
  inv D s -> early k m e s = (r, s1) -> inv D s1.
Proof. intros H. apply early_inv. intros s0 r0 s2 I _ _. now apply H. Qed.
Lemma response_inv D k f e s r s1 : closes k f -> inv D s -> (pend s = true -> last_sent (tr s) = k) ->
  response f e s = (r, s1) -> inv D s1.
Proof.
  intros C I0 K. unfold response, bind, ret.
  destruct (ext_step 10 e s) as (rc0 & v & ->). cbn [fst snd].
  pose proof (inv_ext D s 10 rc0 v I0) as I. set (s0 := mkSt (pend s) (un s) (Ext 10 rc0 v :: tr s)) in *.
  assert (P0 : pend s0 = pend s) by reflexivity.
  assert (L0 : last_sent (tr s0) = last_sent (tr s)) by reflexivity. clearbody s0.
  destruct (v =? 0); cbn [negb]; [|intros E; injection E as <- <-; exact I].
  destruct (recv e s0) as [rr sr] eqn:ER.
  destruct (recv_cases _ _ _ _ ER) as [(P & -> & ->)|(P & a & Es & Hp & _)].
  - cbn [Z.eqb Pos.eqb NOTREADY]. intros E. injection E as <- <-. exact I.
  - rewrite P0 in P. specialize (K P). rewrite <- L0 in K. rewrite <- P0 in P.
    destruct I as [F _ IP]. destruct (IP P) as (B & T & Co & Z & WN). cbn zeta in *. rewrite K in *.
    destruct (rr =? NOTREADY)%Z eqn:N.
    + intros E. injection E as <- <-. apply Z.eqb_eq in N. specialize (Hp N). rewrite Hp in Es.
      rewrite Es. split; cbn [pend un tr].
      * apply fine_quiet; [apply quiet_got|exact F].
      * discriminate.
      * intros _. cbn zeta. cbn [last_sent]. rewrite K.
        split; [apply bal_quiet; [apply quiet_got|exact B]|].
        split; [|split; [exact Co|split; [exact Z|cbn [waiting]; rewrite N; exact WN]]].
        intros HD b E d x n Hb Hn. cbn [waiting] in E. rewrite N in E. cbn in E.
        destruct (T HD b E d x n Hb Hn) as (c & cb & H1 & H2). exists c, cb. split; [exact H1|now right].
    + assert (HS : fine (tr sr) /\ bal (wins k (un sr)) (tr sr) /\ un sr = un s0 /\ waiting (tr sr) = None /\ last_sent (tr sr) = k).
      { rewrite Es. cbn [un tr waiting last_sent]. rewrite N, K.
        split; [apply fine_quiet; [apply quiet_got|exact F]|].
        split; [apply bal_quiet; [apply quiet_got|exact B]|]. auto. }
      assert (HX : exists r2 sx, (if is_ok rr then ext 11 else fun _ s => (rr, s)) e sr = (r2, sx) /\
        fine (tr sx) /\ bal (wins k (un sx)) (tr sx) /\ un sx = un s0 /\ waiting (tr sx) = None /\ last_sent (tr sx) = k).
      { destruct (is_ok rr).
        - destruct (ext_step1 11 e sr) as (r2 & v2 & ->). do 2 eexists. split; [reflexivity|].
          destruct HS as (F2 & B2 & U2 & X2 & L2). cbn [un tr waiting last_sent].
          split; [apply fine_quiet; [apply quiet_ext|exact F2]|].
          split; [apply bal_quiet; [apply quiet_ext|exact B2]|]. auto.
        - do 2 eexists. split; [reflexivity|]. exact HS. }
      destruct HX as (r2 & sx & -> & F2 & B2 & U2 & X2 & L2).
      intros E. rewrite <- U2 in Co, Z.
      destruct (C e sx r2 r s1 F2 B2 Co Z E) as (_ & F3 & B3 & W3 & Z3 & L3 & X3).
      apply inv_closed; auto. intros _. rewrite L3, X3, L2, X2. auto.
Qed.

(** ** Requests *)
(** [s1] came from [s] without sending; open are the buffers [W]. *)
Definition more (W : list (dir * N * N * N)) (s s1 : st) : Prop :=
  pend s1 = pend s /\ fine (tr s1) /\ bal W (tr s1) /\
  last_sent (tr s1) = last_sent (tr s) /\ waiting (tr s1) = waiting (tr s) /\
  (forall x, In x (tr s) -> In x (tr s1)).
Lemma more_trans W W2 s s1 s2 : more W s s1 -> more W2 s1 s2 -> more W2 s s2.
Proof.
  intros (P & F & B & L & X & I) (P2 & F2 & B2 & L2 & X2 & I2). unfold more.
  rewrite P2, L2, X2. auto 10.
Qed.
Definition mine (acq : bool) (d : dir) (x c l : N) : list (dir * N * N * N) :=
  if acq then [(d, x, c, l)] else [].
Definition was_opened (d : dir) (x c n : N) (t : list ev) : Prop :=
  exists cb, In (Dma (pre_of d) c n x cb OK) t.

Lemma dma_pre d c l e s W : fine (tr s) -> bal W (tr s) -> exists rc x s1,
  dma (pre_of d) c l e s = ((rc, x), s1) /\ un s1 = un s /\ more (W ++ mine (is_ok rc) d x c l) s s1 /\
  (is_ok rc = true -> was_opened d x c l (tr s1)).
Proof.
  intros F B. destruct (dma_step (pre_of d) c l e s) as (rc & x & cb & ->). do 3 eexists.
  split; [reflexivity|]. split; [reflexivity|].
  assert (B2 : bal (W ++ mine (is_ok rc) d x c l) (Dma (pre_of d) c l x cb rc :: tr s)).
  { unfold mine. destruct (is_ok rc) eqn:E; [now apply bal_open|].
    rewrite app_nil_r. apply bal_quiet; [now apply quiet_refused|exact B]. }
  split.
  - unfold more. cbn [pend un tr last_sent waiting].
    split; [reflexivity|]. split; [eapply fine_bal; eauto|]. split; [exact B2|].
    split; [reflexivity|]. split; [reflexivity|]. intros y H. now right.
  - intros E. exists cb. cbn [tr]. apply Z.eqb_eq in E. subst rc. now left.
Qed.
Lemma acquire_ok r cond d c l e s W : fine (tr s) -> bal W (tr s) -> exists r1 x acq s1,
  acquire r cond d c l e s = ((r1, x, acq), s1) /\ un s1 = un s /\ more (W ++ mine acq d x c l) s s1 /\
  (acq = true -> was_opened d x c l (tr s1) /\ cond = true) /\ (is_ok r1 = true -> is_ok r = true).
Proof.
  intros F B. unfold acquire. destruct (is_ok r && cond) eqn:E.
  - unfold bind, ret. destruct (dma_pre d c l e s W F B) as (rc & x & s1 & -> & U & M & O).
    exists rc, x, (is_ok rc), s1. split; [reflexivity|]. split; [exact U|]. split; [exact M|].
    apply andb_prop in E as [E1 E2]. auto.
  - unfold ret. do 4 eexists. split; [reflexivity|]. split; [reflexivity|]. cbn [mine]. rewrite app_nil_r.
    split; [unfold more; auto 10|]. split; [discriminate|auto].
Qed.
Lemma post_if_ok acq d c l x e s W : fine (tr s) -> bal (mine acq d x c l ++ W) (tr s) -> exists s1,
  post_if acq d c l e s = (tt, s1) /\ un s1 = un s /\ more W s s1.
Proof.
  intros F B. unfold post_if. destruct acq; cbn [mine app] in B.
  - unfold post, bind, ret. destruct (dma_step (post_of d) c l e s) as (rc & y & cb & ->).
    eexists. split; [reflexivity|]. split; [reflexivity|].
    pose proof (bal_close W d c l y x cb rc _ B) as B2.
    unfold more. cbn [pend tr last_sent waiting]. split; [reflexivity|].
    split; [eapply fine_bal; eauto|]. split; [exact B2|]. split; [reflexivity|]. split; [reflexivity|].
    intros z H. now right.
  - unfold ret. eexists. split; [reflexivity|]. split; [reflexivity|]. unfold more. auto 10.
Qed.
Lemma set_more W f e s : fine (tr s) -> bal W (tr s) -> exists s1,
  set f e s = (tt, s1) /\ un s1 = f (un s) /\ more W s s1.
Proof. intros F B. eexists. split; [reflexivity|]. split; [reflexivity|]. unfold more. cbn. auto 10. Qed.

(** Sending while nothing is pending. *)
Definition sent (k : kind) (b : list (dir * N * N)) (r : Z) (W : list (dir * N * N * N)) (s s1 : st) : Prop :=
  un s1 = un s /\ fine (tr s1) /\ bal W (tr s1) /\ (forall x, In x (tr s) -> In x (tr s1)) /\
  (pend s1 = true -> last_sent (tr s1) = k /\ waiting (tr s1) = (if is_ok r then Some b else None)) /\
  (is_ok r = true -> pend s1 = true).
Lemma send_ok k b e s W : pend s = false -> fine (tr s) -> bal W (tr s) -> exists r s1,
  send k b e s = (r, s1) /\ sent k b r W s s1.
Proof.
  intros P F B. unfold send. rewrite P. destruct (e_send e (tr s)) as [rc tm].
  destruct (is_ok rc) eqn:E; do 2 eexists; (split; [reflexivity|]); unfold sent;
    cbn [pend un tr last_sent waiting]; rewrite E; cbn [andb].
  - split; [reflexivity|]. split; [apply fine_quiet; [apply quiet_sent|exact F]|].
    split; [apply bal_quiet; [apply quiet_sent|exact B]|]. split; [intros x H; now right|]. auto.
  - split; [reflexivity|]. split; [apply fine_quiet; [apply quiet_sent|exact F]|].
    split; [apply bal_quiet; [apply quiet_sent|exact B]|]. split; [intros x H; now right|].
    split; [discriminate|discriminate].
Qed.
(** The request went out: open are just the buffers of the record. *)
Lemma inv_sent (D : Prop) k b s s1 W : sent k b OK W s s1 -> wins k (un s) = W -> codes k (un s) ->
  (k = KPlain -> w2 (un s) = 0) ->
  (D -> forall d x n, In (d, x, n) b -> 0 < n -> exists c, In (d, x, c, n) W /\ was_opened d x c n (tr s)) ->
  inv D s1.
Proof.
  intros (U & F & B & I & L & P) Hw C Z T. specialize (P eq_refl). destruct (L P) as [L1 X1].
  split; [exact F|congruence|]. intros _. cbn zeta. rewrite L1, U, Hw.
  split; [exact B|]. split; [|split; [exact C|split; [exact Z|rewrite X1; discriminate]]].
  intros HD b' E d x n Hb Hn. rewrite X1 in E. injection E as <-.
  destruct (T HD d x n Hb Hn) as (c & H1 & cb & H2). exists c, cb. auto.
Qed.

Lemma one_mine d x c l : 0 < l -> one d x c l = mine true d x c l.
Proof. intros H. unfold one. apply N.ltb_lt in H. now rewrite H. Qed.
Lemma one_zero d x c : one d x c 0 = [].
Proof. reflexivity. Qed.
Lemma more_bal W W' s s1 : (forall d a n, hits d a n W = hits d a n W') -> more W s s1 -> more W' s s1.
Proof. intros H (P & F & B & R). unfold more. split; [exact P|]. split; [exact F|]. split; [now apply (bal_perm W)|exact R]. Qed.
Ltac unmore H P F B L X I := destruct H as (P & F & B & L & X & I).

Lemma rng_request_inv D b e s r s1 : inv D s -> rng_request b e s = (r, s1) -> inv D s1.
Proof.
  intros I0. unfold rng_request. apply early_keep; [|exact I0]. clear s I0 r s1.
  intros s r s1 I.
  destruct (size b =? 0) eqn:Sz; [unfold ret; intros E; injection E as <- <-; exact I|].
  apply N.eqb_neq in Sz.
  unfold bind, pending. destruct (pend s) eqn:P; [unfold ret; intros E; injection E as <- <-; exact I|].
  destruct I as [F II _]. destruct (II P) as [Z B]. clear II.
  destruct (acquire_ok OK true Wr (addr b) (size b) e s [] F B) as (r1 & x & acq & sa & EA & U & M & O & _).
  assert (HA : acq = is_ok r1).
  { unfold acquire, bind, ret in EA. cbn [is_ok andb Z.eqb OK] in EA.
    destruct (dma (pre_of Wr) (addr b) (size b) e s) as [[? ?] ?]. injection EA as <- <- <- <-. reflexivity. }
  rewrite EA. unmore M Pa Fa Ba La Xa Ia. rewrite P in Pa. cbn [app] in Ba.
  destruct (is_ok r1) eqn:R1.
  - destruct (O HA) as [O1 _]. subst acq.
    destruct (set_more _ (put_a x (addr b) (size b)) e sa Fa Ba) as (sb & -> & Ub & Mb).
    unmore Mb Pb Fb Bb Lb Xb Ib. rewrite Pa in Pb.
    destruct (send_ok KRng [(Wr, x, size b)] e sb _ Pb Fb Bb) as (r2 & sc & -> & Hs).
    destruct (is_ok r2) eqn:R2; cbn [negb andb].
    + unfold ret. intros E. injection E as <- <-. apply Z.eqb_eq in R2. subst r2.
      apply (inv_sent D _ _ _ _ _ Hs); rewrite ?Ub; cbn [wins codes put_a w0 w1 w2]; [|exact Logic.I|discriminate|].
      * apply one_mine. lia.
      * intros _ d y n [Eq|[]] _. injection Eq as <- <- <-. exists (addr b). split; [now left|].
        destruct O1 as [cb O1]. exists cb. auto.
    + destruct Hs as (Uc & Fc & Bc & Ic & Lc & _).
      destruct (post_if_ok true Wr (addr b) (size b) x e sc [] Fc) as (sd & Ed & Ud & Md); [now rewrite app_nil_r|].
      cbn [post_if] in Ed. rewrite Ed. unmore Md Pd Fd Bd Ld Xd Id.
      destruct (set_more _ done_a e sd Fd Bd) as (se & -> & Ue & Me). unfold ret.
      intros E. injection E as <- <-. unmore Me Pe Fe Be Le Xe Ie.
      apply inv_closed; auto.
      * now rewrite Ue.
      * rewrite Pe, Pd. intros H. destruct (Lc H) as [L1 L2]. rewrite Le, Ld, L1, Xe, Xd, L2, R2, Ue. auto.
  - subst acq. unfold ret. rewrite andb_false_r. intros E. injection E as <- <-.
    apply inv_closed; auto; [now rewrite U|]. rewrite Pa. discriminate.
Qed.

Lemma is_ok_eq r : is_ok r = true -> r = OK.
Proof. apply Z.eqb_eq. Qed.
Lemma wins_zero k : wins k zero = [].
Proof. destruct k; reflexivity. Qed.
Lemma some_pos a n : some a n = true -> 0 < n.
Proof. unfold some. intros H. apply andb_prop in H as [_ H]. now apply N.ltb_lt. Qed.
Lemma one_acq (acq : bool) d x c l : (acq = true -> 0 < l) -> one d x c (if acq then l else 0) = mine acq d x c l.
Proof. destruct acq; intros H; [|reflexivity]. rewrite one_mine; auto. Qed.
Lemma given_in acq d x l d' y n : In (d', y, n) (given acq d x l) -> acq = true /\ d' = d /\ y = x /\ n = l.
Proof. destruct acq; cbn; [|intros []]. intros [E|[]]. injection E as <- <- <-. auto. Qed.

(** Clean-up of a request whose record is cleared as a whole. *)
Lemma inv_failed D k b r W s s1 s2 : sent k b r W s s1 -> is_ok r = false -> more [] s1 s2 ->
  wins k (un s2) = [] -> w2 (un s2) = 0 -> inv D s2.
Proof.
  intros (U & F & B & I & L & _) R (P2 & F2 & B2 & L2 & X2 & _) W2 Z.
  apply inv_closed; auto. rewrite P2, L2, X2. intros H. destruct (L H) as [-> ->]. rewrite R. auto.
Qed.

Lemma aes_request_inv D i o n e s r s1 : inv D s -> aes_request i o n e s = (r, s1) -> inv D s1.
Proof.
  intros I0. unfold aes_request. apply early_keep; [|exact I0]. clear s I0 r s1.
  intros s r s1 I.
  unfold bind, pending. destruct (pend s) eqn:P; [unfold ret; intros E; injection E as <- <-; exact I|].
  destruct I as [F II _]. destruct (II P) as [Z B]. clear II.
  destruct (acquire_ok OK (some i n) Rd i n e s [] F B) as (r1 & x & acq & sa & -> & Ua & Ma & Oa & _).
  cbn [app] in Ma. unmore Ma Pa Fa Ba La Xa Ia. rewrite P in Pa.
  destruct (acquire_ok r1 (some o n) Wr o n e sa _ Fa Ba) as (r2 & y & acq2 & sb & -> & Ub & Mb & Ob & _).
  unmore Mb Pb Fb Bb Lb Xb Ib. rewrite Pa in Pb.
  destruct (is_ok r2) eqn:R2.
  - match goal with |- context [set ?f e sb] =>
      destruct (set_more _ f e sb Fb Bb) as (sc & -> & Uc & Mc) end.
    unmore Mc Pc Fc Bc Lc Xc Ic. rewrite Pb in Pc.
    destruct (send_ok KAes (given acq Rd x n ++ given acq2 Wr y n) e sc _ Pc Fc Bc) as (r3 & sd & -> & Hs).
    destruct (is_ok r3) eqn:R3; cbn [negb].
    + unfold ret. intros E. injection E as <- <-. apply is_ok_eq in R3. subst r3.
      apply (inv_sent D _ _ _ _ _ Hs); rewrite ?Uc; cbn [wins codes put_a put_b put_c w0 w1 w2 w3 w4 w5];
        [|exact Logic.I|discriminate|].
      * rewrite !one_acq; [reflexivity| |]; intros H; [destruct (Ob H) as [_ H2]|destruct (Oa H) as [_ H2]];
          now apply some_pos in H2.
      * intros _ d z m H Hm. apply in_app_iff in H as [H|H]; apply given_in in H as (-> & -> & -> & ->).
        -- exists i. split; [now left|]. destruct (Oa eq_refl) as [(cb & O1) _]. exists cb. auto.
        -- exists o. split; [apply in_app_iff; right; now left|]. destruct (Ob eq_refl) as [(cb & O1) _]. exists cb. auto.
    + pose proof Hs as (Ud & Fd & Bd & _).
      destruct (post_if_ok acq Rd i n x e sd _ Fd Bd) as (se & -> & Ue & Me).
      pose proof Me as (_ & Fe & Be & _). rewrite <- (app_nil_r (mine acq2 _ _ _ _)) in Be.
      destruct (post_if_ok acq2 Wr o n y e se _ Fe Be) as (sf & -> & Uf & Mf).
      pose proof Mf as (_ & Ff & Bf & _).
      destruct (set_more _ (fun _ => zero) e sf Ff Bf) as (sg & -> & Ug & Mg). unfold ret.
      intros E. injection E as <- <-.
      eapply (inv_failed D _ _ _ _ _ _ _ Hs R3); [exact (more_trans _ _ _ _ _ Me (more_trans _ _ _ _ _ Mf Mg))| |];
        rewrite Ug; reflexivity.
  - unfold ret. cbv beta iota. rewrite R2. cbn [negb].
    destruct (post_if_ok acq Rd i n x e sb _ Fb Bb) as (se & -> & Ue & Me).
    pose proof Me as (Pe & Fe & Be & _). rewrite <- (app_nil_r (mine acq2 _ _ _ _)) in Be.
    destruct (post_if_ok acq2 Wr o n y e se _ Fe Be) as (sf & -> & Uf & Mf).
    pose proof Mf as (Pf & Ff & Bf & _).
    destruct (set_more _ (fun _ => zero) e sf Ff Bf) as (sg & -> & Ug & Mg).
    pose proof Mg as (Pg & Fg & Bg & _).
    intros E. injection E as <- <-. apply inv_closed; auto; [now rewrite Ug|].
    rewrite Pg, Pf, Pe, Pb. discriminate.
Qed.
Lemma gcm_request_inv D i o n ad e s r s1 : inv D s -> gcm_request i o n ad e s = (r, s1) -> inv D s1.
Proof.
  intros I0. unfold gcm_request. apply early_keep; [|exact I0]. clear s I0 r s1.
  intros s r s1 I.
  unfold bind, pending. destruct (pend s) eqn:P; [unfold ret; intros E; injection E as <- <-; exact I|].
  destruct I as [F II _]. destruct (II P) as [Z B]. clear II.
  destruct (acquire_ok OK (some i n) Rd i n e s [] F B) as (r1 & x & acq & sa & -> & Ua & Ma & Oa & _).
  cbn [app] in Ma. unmore Ma Pa Fa Ba La Xa Ia. rewrite P in Pa.
  destruct (acquire_ok r1 (some o n) Wr o n e sa _ Fa Ba) as (r2 & y & acq2 & sb & -> & Ub & Mb & Ob & _).
  unmore Mb Pb Fb Bb Lb Xb Ib. rewrite Pa in Pb.
  destruct (acquire_ok r2 (some (addr ad) (size ad)) Rd (addr ad) (size ad) e sb _ Fb Bb)
    as (r3 & z & acq3 & sc & -> & Uc & Mc & Oc & _).
  rewrite <- app_assoc in Mc.
  unmore Mc Pc Fc Bc Lc Xc Ic. rewrite Pb in Pc.
  assert (CL : forall s0, fine (tr s0) -> bal (mine acq Rd x i n ++ mine acq2 Wr y o n ++ mine acq3 Rd z (addr ad) (size ad)) (tr s0) ->
     exists s4, (let '(_, s5) := post_if acq Rd i n e s0 in
                 let '(_, s6) := post_if acq2 Wr o n e s5 in
                 let '(_, s7) := post_if acq3 Rd (addr ad) (size ad) e s6 in
                 set (fun _ => zero) e s7) = (tt, s4) /\ un s4 = zero /\ more [] s0 s4).
  { intros s0 F0 B0.
    destruct (post_if_ok acq Rd i n x e s0 _ F0 B0) as (se & -> & Ue & Me).
    pose proof Me as (_ & Fe & Be & _).
    destruct (post_if_ok acq2 Wr o n y e se _ Fe Be) as (sf & -> & Uf & Mf).
    pose proof Mf as (_ & Ff & Bf & _). rewrite <- (app_nil_r (mine acq3 _ _ _ _)) in Bf.
    destruct (post_if_ok acq3 Rd (addr ad) (size ad) z e sf _ Ff Bf) as (sg & -> & Ug & Mg).
    pose proof Mg as (_ & Fg & Bg & _).
    destruct (set_more _ (fun _ => zero) e sg Fg Bg) as (sh & -> & Uh & Mh).
    exists sh. split; [reflexivity|]. split; [exact Uh|].
    exact (more_trans _ _ _ _ _ Me (more_trans _ _ _ _ _ Mf (more_trans _ _ _ _ _ Mg Mh))). }
  destruct (is_ok r3) eqn:R3.
  - match goal with |- context [set ?f e sc] =>
      destruct (set_more _ f e sc Fc Bc) as (sd & -> & Ud & Md) end.
    unmore Md Pd Fd Bd Ld Xd Id. rewrite Pc in Pd.
    match goal with |- context [send KGcm ?b e sd] =>
      destruct (send_ok KGcm b e sd _ Pd Fd Bd) as (r4 & se & -> & Hs) end.
    destruct (is_ok r4) eqn:R4; cbn [negb].
    + unfold ret. intros E. injection E as <- <-. apply is_ok_eq in R4. subst r4.
      apply (inv_sent D _ _ _ _ _ Hs); rewrite ?Ud; cbn [wins codes put_a put_b put_c w0 w1 w2 w3 w4 w5 w6 w7 w8];
        [|exact Logic.I|discriminate|].
      * rewrite !one_acq; [reflexivity| | |]; intros H;
          [destruct (Oc H) as [_ H2]|destruct (Ob H) as [_ H2]|destruct (Oa H) as [_ H2]];
          now apply some_pos in H2.
      * intros _ d w m H Hm. rewrite !in_app_iff in H. destruct H as [H|[H|H]];
          apply given_in in H as (-> & -> & -> & ->).
        -- exists i. split; [now left|]. destruct (Oa eq_refl) as [(cb & O1) _]. exists cb. auto.
        -- exists o. split; [rewrite !in_app_iff; right; left; now left|].
           destruct (Ob eq_refl) as [(cb & O1) _]. exists cb. auto.
        -- exists (addr ad). split; [rewrite !in_app_iff; right; right; now left|].
           destruct (Oc eq_refl) as [(cb & O1) _]. exists cb. auto.
    + pose proof Hs as (Ue & Fe & Be & _). destruct (CL se Fe Be) as (sf & EC & Uf & Mf).
      cbv beta in EC |- *. revert EC.
      destruct (post_if acq Rd i n e se) as [? s5]. destruct (post_if acq2 Wr o n e s5) as [? s6].
      destruct (post_if acq3 Rd (addr ad) (size ad) e s6) as [? s7]. intros ->. unfold ret.
      intros E. injection E as <- <-.
      eapply (inv_failed D _ _ _ _ _ _ _ Hs R4 Mf); rewrite Uf; reflexivity.
  - unfold ret. cbv beta iota. rewrite R3. cbn [negb].
    destruct (CL sc Fc Bc) as (sf & EC & Uf & Mf).
    revert EC.
    destruct (post_if acq Rd i n e sc) as [? s5]. destruct (post_if acq2 Wr o n e s5) as [? s6].
    destruct (post_if acq3 Rd (addr ad) (size ad) e s6) as [? s7]. intros ->.
    intros E. injection E as <- <-. unmore Mf Pf Ff Bf Lf Xf If.
    apply inv_closed; auto; [now rewrite Uf|]. rewrite Pf, Pc. discriminate.
Qed.

Lemma cmac_request_inv D b e s r s1 : inv D s -> cmac_request b e s = (r, s1) -> inv D s1.
Proof.
  intros I0. unfold cmac_request. apply early_keep; [|exact I0]. clear s I0 r s1.
  intros s r s1 I.
  unfold bind, pending. destruct (pend s) eqn:P; [unfold ret; intros E; injection E as <- <-; exact I|].
  destruct I as [F II _]. destruct (II P) as [Z B]. clear II.
  destruct (acquire_ok OK (0 <? size b) Rd (addr b) (size b) e s [] F B) as (r1 & x & acq & sa & EA & Ua & Ma & Oa & _).
  assert (HA : acq = true -> is_ok r1 = true).
  { unfold acquire, bind, ret in EA. destruct (is_ok OK && (0 <? size b)).
    - destruct (dma (pre_of Rd) (addr b) (size b) e s) as [[? ?] ?]. injection EA as <- <- <- <-. auto.
    - injection EA as <- <- <- <-. discriminate. }
  rewrite EA. clear EA. cbn [app] in Ma. unmore Ma Pa Fa Ba La Xa Ia. rewrite P in Pa.
  assert (HB : exists sb, (if acq then set (put_a x (addr b) (size b)) else ret tt) e sa = (tt, sb) /\
     more (mine acq Rd x (addr b) (size b)) sa sb /\
     one Rd (w0 (un sb)) (w1 (un sb)) (w2 (un sb)) = mine acq Rd x (addr b) (size b) /\
     (acq = false -> un sb = un sa)).
  { destruct acq.
    - destruct (set_more _ (put_a x (addr b) (size b)) e sa Fa Ba) as (sb & -> & Ub & Mb).
      exists sb. split; [reflexivity|]. split; [exact Mb|]. split; [|discriminate].
      rewrite Ub. apply one_mine. destruct (Oa eq_refl) as [_ H]. now apply N.ltb_lt.
    - unfold ret. exists sa. split; [reflexivity|]. split; [unfold more; auto 10|]. split; [|auto].
      rewrite Ua, Z. reflexivity. }
  destruct HB as (sb & -> & Mb & Wb & Nb). unmore Mb Pb Fb Bb Lb Xb Ib. rewrite Pa in Pb.
  destruct (is_ok r1) eqn:R1.
  - destruct (send_ok KCmac (given acq Rd x (size b)) e sb _ Pb Fb Bb) as (r2 & sc & -> & Hs).
    destruct (is_ok r2) eqn:R2; cbn [negb andb].
    + unfold ret. intros E. injection E as <- <-. apply is_ok_eq in R2. subst r2.
      apply (inv_sent D _ _ _ _ _ Hs); [exact Wb|exact Logic.I|discriminate|].
      intros _ d y n H Hn. apply given_in in H as (-> & -> & -> & ->).
      exists (addr b). split; [now left|]. destruct (Oa eq_refl) as [(cb & O1) _]. exists cb. auto.
    + pose proof Hs as (Uc & Fc & Bc & _). destruct acq.
      * rewrite <- Wb, <- Uc in Bc. rewrite <- (app_nil_r (one _ _ _ _)) in Bc.
        pose proof (close_a_ok Rd e sc [] Fc Bc) as H. destruct (close_a Rd e sc) as [[] sd]. cbn [snd] in H.
        unfold ret. intros E. injection E as <- <-.
        destruct H as (Pd & Ud & Fd & Bd & Ld & Xd). destruct Hs as (_ & _ & _ & _ & Hs & _).
        apply inv_closed; auto; [now rewrite Ud|]. rewrite Pd, Ld, Xd. intros H.
        destruct (Hs H) as [-> ->]. rewrite R2, Ud. auto.
      * unfold ret. intros E. injection E as <- <-. cbn [mine] in *. destruct Hs as (_ & _ & _ & _ & Hs & _).
        assert (Z2 : w2 (un sc) = 0) by (rewrite Uc, Nb, Ua; auto).
        apply inv_closed; auto. intros H.
        destruct (Hs H) as [-> ->]. rewrite R2. cbn [wins]. rewrite Z2. auto.
  - destruct acq; [specialize (HA eq_refl); congruence|].
    unfold ret. rewrite R1. cbn [negb andb]. intros E. injection E as <- <-.
    apply inv_closed; auto; [rewrite Nb, Ua; auto|]. rewrite Pb. discriminate.
Qed.

Lemma sha_request_inv D b e s r s1 : inv D s -> sha_request b e s = (r, s1) -> inv D s1.
Proof.
  intros I0. unfold sha_request. apply early_keep; [|exact I0]. clear s I0 r s1.
  intros s r s1 I.
  unfold bind at 1, pending. destruct (pend s) eqn:P; [unfold ret; intros E; injection E as <- <-; exact I|].
  apply early_inv; [|exact I]. intros s0 r0 s2 I2 P2 _. clear I. rewrite P in P2. clear s P r s1.
  rename s0 into s, r0 into r, s2 into s1, P2 into P, I2 into I.
  destruct I as [F II _]. destruct (II P) as [Z B]. clear II. unfold bind.
  destruct (acquire_ok OK (0 <? size b) Rd (addr b) (size b) e s [] F B) as (r1 & x & acq & sa & EA & Ua & Ma & Oa & _).
  assert (HA : is_ok r1 = true -> acq = (0 <? size b)).
  { unfold acquire, bind, ret in EA. cbn [is_ok Z.eqb OK andb] in EA. destruct (0 <? size b).
    - destruct (dma (pre_of Rd) (addr b) (size b) e s) as [[? ?] ?]. injection EA as <- <- <- <-. auto.
    - injection EA as <- <- <- <-. reflexivity. }
  rewrite EA. clear EA. cbn [app] in Ma. unmore Ma Pa Fa Ba La Xa Ia. rewrite P in Pa.
  destruct (is_ok r1) eqn:R1.
  - specialize (HA eq_refl).
    destruct (set_more _ (put_a x (addr b) (size b)) e sa Fa Ba) as (sb & -> & Ub & Mb).
    unmore Mb Pb Fb Bb Lb Xb Ib. rewrite Pa in Pb.
    destruct (send_ok KSha (given acq Rd x (size b)) e sb _ Pb Fb Bb) as (r2 & sc & -> & Hs).
    destruct (is_ok r2) eqn:R2; cbn [negb andb].
    + unfold ret. intros E. injection E as <- <-. apply is_ok_eq in R2. subst r2.
      apply (inv_sent D _ _ _ _ _ Hs); rewrite ?Ub; cbn [wins codes put_a w0 w1 w2]; [|exact Logic.I|discriminate|].
      * unfold one, mine. now rewrite HA.
      * intros _ d y n H Hn. apply given_in in H as (E & -> & -> & ->). destruct (Oa E) as [(cb & O1) _].
        exists (addr b). split; [rewrite E; now left|]. exists cb. auto.
    + pose proof Hs as (Uc & Fc & Bc & _). rewrite <- (app_nil_r (mine _ _ _ _ _)) in Bc.
      destruct (post_if_ok acq Rd (addr b) (size b) x e sc [] Fc Bc) as (sd & -> & Ud & Md).
      pose proof Md as (_ & Fd & Bd & _).
      destruct (set_more _ (put_a 0 0 0) e sd Fd Bd) as (se & -> & Ue & Me). unfold ret.
      intros E. injection E as <- <-.
      eapply (inv_failed D _ _ _ _ _ _ _ Hs R2); [exact (more_trans _ _ _ _ _ Md Me)| |]; rewrite Ue; reflexivity.
  - unfold ret. cbv beta iota. rewrite R1. cbn [negb]. rewrite <- (app_nil_r (mine _ _ _ _ _)) in Ba.
    destruct (post_if_ok acq Rd (addr b) (size b) x e sa [] Fa Ba) as (sd & -> & Ud & Md).
    pose proof Md as (Pd & Fd & Bd & _).
    destruct (set_more _ (put_a 0 0 0) e sd Fd Bd) as (se & -> & Ue & Me). pose proof Me as (Pe & Fe & Be & _).
    intros E. injection E as <- <-. apply inv_closed; auto; [now rewrite Ue|]. rewrite Pe, Pd, Pa. discriminate.
Qed.

Lemma async_pre_ok (put : N -> N -> N -> N -> words -> words) c l d e s W : fine (tr s) -> bal W (tr s) -> exists r x (acq : bool) s1,
  async_pre put c l d e s = ((r, x), s1) /\
  un s1 = (if acq then put x c l (code d) (put 0 0 0 0 (un s)) else put 0 0 0 0 (un s)) /\
  more (W ++ mine acq d x c l) s s1 /\
  (acq = true -> was_opened d x c l (tr s1) /\ 0 < l) /\
  (is_ok r = true -> acq = (0 <? l)) /\ (is_ok r = false -> acq = false).
Proof.
  intros F B. unfold async_pre, bind.
  destruct (set_more W (put 0 0 0 0) e s F B) as (sa & -> & Ua & Ma).
  destruct (l =? 0) eqn:L; [apply N.eqb_eq in L|apply N.eqb_neq in L].
  - unfold ret. exists OK, 0, false, sa. cbn [mine]. rewrite app_nil_r, L.
    split; [reflexivity|]. split; [exact Ua|]. split; [exact Ma|]. split; [discriminate|]. split; [reflexivity|reflexivity].
  - pose proof Ma as (_ & Fa & Ba & _).
    destruct (dma_pre d c l e sa W Fa Ba) as (rc & x & sb & -> & Ub & Mb & O).
    assert (HL : (0 <? l) = true) by (apply N.ltb_lt; lia).
    pose proof (more_trans _ _ _ _ _ Ma Mb) as Mc. destruct (is_ok rc) eqn:R.
    + pose proof Mb as (_ & Fb & Bb & _).
      destruct (set_more _ (put x c l (code d)) e sb Fb Bb) as (sc & -> & Uc & Md). unfold ret.
      exists rc, x, true, sc. split; [reflexivity|]. rewrite Uc, Ub, Ua. split; [reflexivity|].
      split; [exact (more_trans _ _ _ _ _ Mc Md)|].
      split; [intros _; split; [|lia]; destruct (O eq_refl) as [cb O2]; exists cb; apply Md, O2|].
      rewrite HL. split; [reflexivity|]. rewrite R. discriminate.
    + unfold ret. exists rc, 0, false, sb. split; [reflexivity|]. rewrite Ub, Ua. split; [reflexivity|].
      split; [exact Mc|]. split; [discriminate|]. split; [rewrite R; discriminate|reflexivity].
Qed.
Lemma dir_code d : dir_of (code d) = d. Proof. destruct d; reflexivity. Qed.
Lemma code_ok d : code d = 1 \/ code d = 3. Proof. destruct d; auto. Qed.

Lemma shut_more u W s s1 : (forall x, In x (tr s) -> In x (tr s1)) -> shut u W s s1 -> more W s s1.
Proof. intros I (P & _ & F & B & L & X). unfold more. auto 10. Qed.

Lemma buf_request_inv (D : Prop) d c l n e s r s1 : (D -> n = l) -> inv D s ->
  buf_request d c l n e s = (r, s1) -> inv D s1.
Proof.
  intros HD I0. unfold buf_request. apply early_keep; [|exact I0]. clear s I0 r s1.
  intros s r s1 I.
  unfold bind at 1, pending. destruct (pend s) eqn:P; [unfold ret; intros E; injection E as <- <-; exact I|].
  apply early_inv; [|exact I]. intros s0 r0 s2 I2 P2 _. clear I. rewrite P in P2. clear s P r s1.
  rename s0 into s, r0 into r, s2 into s1, P2 into P, I2 into I.
  destruct I as [F II _]. destruct (II P) as [Z B]. clear II. unfold bind.
  destruct (async_pre_ok put_m c l d e s [] F B) as (r1 & x & acq & sa & -> & Ua & Ma & Oa & HA & HN).
  cbn [app] in Ma. unmore Ma Pa Fa Ba La Xa Ia. rewrite P in Pa.
  assert (HW : one (dir_of (w3 (un sa))) (w0 (un sa)) (w1 (un sa)) (w2 (un sa)) = mine acq d x c l).
  { rewrite Ua. destruct acq; cbn [put_m w0 w1 w2 w3]; [|reflexivity]. rewrite dir_code. apply one_mine. now apply Oa. }
  assert (HC : codes KBuf (un sa)).
  { cbn [codes]. rewrite Ua. destruct acq; cbn [put_m w2 w3]; [intros _; apply code_ok|lia]. }
  assert (CL : forall s0, un s0 = un sa -> fine (tr s0) -> bal (mine acq d x c l) (tr s0) ->
     let s3 := snd (post_m e s0) in w2 (un s3) = 0 /\ shut (un s3) [] s0 s3).
  { intros s0 U0 F0 B0. rewrite <- HW, <- U0 in B0. rewrite <- (app_nil_r (one _ _ _ _)) in B0.
    rewrite <- U0 in HC. destruct (post_m_ok e s0 [] F0 B0 HC) as (Z3 & _ & _ & _ & _ & _ & H). auto. }
  destruct (is_ok r1) eqn:R1.
  - specialize (HA eq_refl).
    destruct (send_ok KBuf [(d, x, n)] e sa _ Pa Fa Ba) as (r2 & sc & -> & Hs).
    destruct (is_ok r2) eqn:R2; cbn [negb].
    + unfold ret. intros E. injection E as <- <-. apply is_ok_eq in R2. subst r2.
      apply (inv_sent D _ _ _ _ _ Hs); [exact HW|exact HC|discriminate|].
      intros H d' y m [Eq|[]] Hm. injection Eq as <- <- <-. specialize (HD H). subst n.
      apply N.ltb_lt in Hm. rewrite Hm in HA. destruct (Oa HA) as [O1 _]. exists c.
      split; [rewrite HA; now left|exact O1].
    + pose proof Hs as (Uc & Fc & Bc & _). destruct (CL sc Uc Fc Bc) as [Z3 H].
      destruct (post_m e sc) as [rp sd]. cbn [snd] in *. unfold ret. intros E. injection E as <- <-.
      destruct H as (Pd & _ & Fd & Bd & Ld & Xd). destruct Hs as (_ & _ & _ & _ & Hs & _).
      apply inv_closed; auto. rewrite Pd, Ld, Xd. intros H.
      destruct (Hs H) as [-> ->]. rewrite R2. cbn [wins]. rewrite Z3. auto.
  - unfold ret. cbv beta iota. rewrite R1. cbn [negb]. destruct (CL sa eq_refl Fa Ba) as [Z3 H].
    destruct (post_m e sa) as [rp sd]. cbn [snd] in *. intros E. injection E as <- <-.
    destruct H as (Pd & _ & Fd & Bd & Ld & Xd). apply inv_closed; auto. rewrite Pd, Pa. discriminate.
Qed.

Lemma nvm_add_request_inv (D : Prop) m dt n e s r s1 : (D -> dt = 0 -> n = 0) -> inv D s ->
  nvm_add_request m dt n e s = (r, s1) -> inv D s1.
Proof.
  intros HD I0. unfold nvm_add_request. apply early_keep; [|exact I0]. clear s I0 r s1.
  intros s r s1 I.
  unfold bind, pending. destruct (pend s) eqn:P; [unfold ret; intros E; injection E as <- <-; exact I|].
  destruct I as [F II _]. destruct (II P) as [Z B]. clear II.
  destruct (set_more _ (fun u => put_d 0 0 0 0 (put_m 0 0 0 0 u)) e s F B) as (s0 & -> & U0 & M0).
  unmore M0 P0 F0 B0 L0 X0 J0. rewrite P in P0.
  destruct (async_pre_ok put_m m META Rd e s0 [] F0 B0) as (r1 & x & acq & sa & -> & Ua & Ma & Oa & HA & HN).
  cbn [app] in Ma. unmore Ma Pa Fa Ba La Xa Ia. rewrite P0 in Pa.
  set (l := if dt =? 0 then 0 else n).
  assert (HB : exists r2 y acq2 sb,
    (if is_ok r1 then async_pre put_d dt l Rd else ret (r1, 0)) e sa = ((r2, y), sb) /\
    more (mine acq Rd x m META ++ mine acq2 Rd y dt l) sa sb /\
    (acq2 = true -> was_opened Rd y dt l (tr sb) /\ 0 < l) /\
    (is_ok r2 = true -> is_ok r1 = true /\ acq2 = (0 <? l)) /\
    wins KNvmAdd (un sb) = mine acq Rd x m META ++ mine acq2 Rd y dt l /\ codes KNvmAdd (un sb)).
  { rewrite U0 in Ua. destruct (is_ok r1) eqn:R1.
    - destruct (async_pre_ok put_d dt l Rd e sa _ Fa Ba) as (r2 & y & acq2 & sb & -> & Ub & Mb & Ob & HA2 & HN2).
      exists r2, y, acq2, sb. split; [reflexivity|]. split; [exact Mb|]. split; [exact Ob|].
      split; [intros H; split; auto|]. rewrite Ub, Ua.
      assert (HL : acq2 = true -> 0 < l) by (intros H; now apply Ob).
      split.
      + destruct acq, acq2; cbn [wins put_m put_d w0 w1 w2 w3 w4 w5 w6 w7 mine code]; try reflexivity;
          unfold one; try (replace (0 <? l) with true by (symmetry; apply N.ltb_lt; auto)); reflexivity.
      + destruct acq, acq2; cbn [codes put_m put_d w2 w3 w6 w7 code]; split; auto; lia.
    - unfold ret. exists r1, 0, false, sa. split; [reflexivity|]. cbn [mine]. rewrite app_nil_r.
      split; [unfold more; auto 10|]. split; [discriminate|]. split; [rewrite R1; discriminate|].
      rewrite (HN eq_refl) in *. rewrite Ua. split; [reflexivity|]. cbn. split; lia. }
  destruct HB as (r2 & y & acq2 & sb & -> & Mb & Ob & HA2 & HW & HC). unmore Mb Pb Fb Bb Lb Xb Ib. rewrite Pa in Pb.
  assert (CL : forall s3 r4 s4, un s3 = un sb -> fine (tr s3) ->
     bal (mine acq Rd x m META ++ mine acq2 Rd y dt l) (tr s3) ->
     (post_d;;; post_m;;; ret r2) e s3 = (r4, s4) -> closed_down KNvmAdd s3 s4).
  { intros s3 r4 s4 U3 F3 B3 E3. rewrite <- HW, <- U3 in B3. rewrite <- U3 in HC.
    apply (closes_nvm_add e s3 r2 r4 s4); auto. discriminate. }
  destruct (is_ok r2) eqn:R2.
  - destruct (HA2 eq_refl) as [R1 HA3]. specialize (HA R1).
    destruct (send_ok KNvmAdd [(Rd, x, META); (Rd, y, n)] e sb _ Pb Fb Bb) as (r3 & sc & -> & Hs).
    destruct (is_ok r3) eqn:R3; cbn [negb].
    + unfold ret. intros E. injection E as <- <-. apply is_ok_eq in R3. subst r3.
      apply (inv_sent D _ _ _ _ _ Hs); [exact HW|exact HC|discriminate|].
      intros H d z k [Eq|[Eq|[]]] Hk; injection Eq as <- <- <-.
      * cbn in HA. subst acq. exists m. split; [now left|]. destruct (Oa eq_refl) as [(cb & O1) _]. exists cb. auto.
      * specialize (HD H). unfold l in HA3. destruct (dt =? 0) eqn:DT.
        { apply N.eqb_eq in DT. specialize (HD DT). lia. }
        apply N.ltb_lt in Hk. rewrite Hk in HA3. subst acq2. exists dt.
        destruct (Ob eq_refl) as [O1 _]. unfold l in *. try rewrite DT in *.
        split; [apply in_app_iff; right; now left|exact O1].
    + pose proof Hs as (Uc & Fc & Bc & _). specialize (CL sc). unfold bind in CL.
      destruct (post_d e sc) as [? sd]. destruct (post_m e sd) as [? se]. unfold ret in *.
      intros E. injection E as <- <-.
      destruct (CL r2 se Uc Fc Bc eq_refl) as (Pd & Fd & Bd & Wd & Zd & Ld & Xd).
      destruct Hs as (_ & _ & _ & _ & Hs & _).
      apply inv_closed; auto. rewrite Pd, Ld, Xd. intros H. destruct (Hs H) as [-> ->]. rewrite R3. auto.
  - unfold ret at 1. cbv beta iota. rewrite R2. cbn [negb]. specialize (CL sb). unfold bind in CL.
    destruct (post_d e sb) as [? sd]. destruct (post_m e sd) as [? se]. unfold ret in *.
    intros E. injection E as <- <-.
    destruct (CL r2 se eq_refl Fb Bb eq_refl) as (Pd & Fd & Bd & Wd & Zd & Ld & Xd).
    apply inv_closed; auto. rewrite Pd, Pb. discriminate.
Qed.

Lemma plain_request_inv D e s r s1 : inv D s -> plain_request e s = (r, s1) -> inv D s1.
Proof.
  intros I0. unfold plain_request. apply early_keep; [|exact I0]. clear s I0 r s1.
  intros s r s1 I. destruct (pend s) eqn:P.
  - unfold send. rewrite P. intros E. injection E as <- <-. exact I.
  - destruct I as [F II _]. destruct (II P) as [Z B]. clear II.
    destruct (send_ok KPlain [] e s _ P F B) as (r2 & sc & -> & Hs). intros E. injection E as <- <-.
    destruct (is_ok r2) eqn:R2.
    + apply is_ok_eq in R2. subst r2. apply (inv_sent D _ _ _ _ _ Hs); [reflexivity|exact Logic.I|auto|].
      intros _ d y n [].
    + destruct Hs as (Uc & Fc & Bc & _ & Hs & _). apply inv_closed; auto; [now rewrite Uc|].
      intros H. destruct (Hs H) as [-> ->]. rewrite R2. auto.
Qed.

(** ** Nothing that happened is forgotten *)
Definition mono {A} (m : M A) : Prop := forall e s a s1, m e s = (a, s1) -> forall x, In x (tr s) -> In x (tr s1).
Lemma mono_ret {A} (a : A) : mono (ret a).
Proof. intros e s b s1 E x H. injection E as <- <-. exact H. Qed.
Lemma mono_bind {A B} (m : M A) (f : A -> M B) : mono m -> (forall a, mono (f a)) -> mono (bind m f).
Proof.
  intros Hm Hf e s b s2 E x H. unfold bind in E. destruct (m e s) as [a s1] eqn:E1.
  exact (Hf a e s1 b s2 E x (Hm e s a s1 E1 x H)).
Qed.
Lemma mono_dma op c l : mono (dma op c l).
Proof. intros e s a s1 E x H. destruct (dma_step op c l e s) as (rc & y & cb & E2). rewrite E2 in E. injection E as <- <-. now right. Qed.
Lemma mono_ext2 k : mono (ext2 k).
Proof. intros e s a s1 E x H. destruct (ext_step k e s) as (rc & y & E2). rewrite E2 in E. injection E as <- <-. now right. Qed.
Lemma mono_get : mono get. Proof. intros e s a s1 E x H. injection E as <- <-. exact H. Qed.
Lemma mono_set f : mono (set f). Proof. intros e s a s1 E x H. injection E as <- <-. exact H. Qed.
Lemma mono_pending : mono pending. Proof. intros e s a s1 E x H. injection E as <- <-. exact H. Qed.
Lemma mono_not_pending : mono not_pending. Proof. intros e s a s1 E x H. injection E as <- <-. exact H. Qed.
Lemma mono_send k b : mono (send k b).
Proof.
  intros e s a s1 E x H. unfold send in E. destruct (pend s); [injection E as <- <-; exact H|].
  destruct (e_send e (tr s)) as [rc tm]. destruct (is_ok rc); injection E as <- <-; now right.
Qed.
Lemma mono_recv : mono recv.
Proof.
  intros e s a s1 E x H. destruct (recv_cases _ _ _ _ E) as [(_ & _ & ->)|(_ & y & -> & _)]; [exact H|now right].
Qed.
Lemma mono_wait m n : mono m -> mono (wait m n).
Proof.
  intros Hm. induction n as [|n IH]; [apply mono_ret|]. cbn [wait]. apply mono_bind; [exact Hm|].
  intros r. destruct (r =? NOTREADY)%Z; [exact IH|apply mono_ret].
Qed.
Ltac mono_tac :=
  repeat first
    [ apply mono_ret | apply mono_dma | apply mono_ext2 | apply mono_get | apply mono_set | apply mono_pending
    | apply mono_not_pending | apply mono_send | apply mono_recv
    | apply mono_wait | apply mono_bind; [|intros ?]
    | match goal with
      | |- mono (if ?b then _ else _) => destruct b
      | |- mono (match ?p with (_, _) => _ end) => destruct p
      | |- mono (match ?p with Some _ => _ | None => _ end) => destruct p
      | |- mono (early _ _) => unfold early
      | |- mono (ext _) => unfold ext
      | |- mono (acquire _ _ _ _ _) => unfold acquire
      | |- mono (post_if _ _ _ _) => unfold post_if
      | |- mono (post _ _ _) => unfold post
      | |- mono (close_a _) => unfold close_a
      | |- mono (close_b _) => unfold close_b
      | |- mono (close_c _) => unfold close_c
      | |- mono (async_pre _ _ _ _) => unfold async_pre
      | |- mono post_m => unfold post_m, async_post
      | |- mono post_d => unfold post_d, async_post
      | |- mono (response _) => unfold response
      end ].
Lemma mono_open_all l : mono (open_all l).
Proof. induction l as [|[d b] l IH]; cbn [open_all]; mono_tac; exact IH. Qed.
Lemma mono_close_all l : forall r, mono (close_all l r).
Proof. induction l as [|[d b] l IH]; intros r; cbn [close_all]; mono_tac; apply IH. Qed.
Lemma mono_direct o n : mono (direct_call o n).
Proof. unfold direct_call. mono_tac; first [apply mono_open_all | apply mono_close_all]. Qed.
Lemma mono_do c : mono (do_call c).
Proof.
  destruct c; cbn [do_call]; try apply mono_direct; unfold to_some, rng_request, rng_response, aes_request, aes_response,
    gcm_request, gcm_response, cmac_request, cmac_response, sha_request, sha_response, nvm_read_request, buf_request,
    read_response, write_response, nvm_add_request, nvm_add_response, plain_request, plain_response, cleanup; mono_tac.
Qed.
Lemma mono_run e h : forall s s1, run e h s = Some s1 -> forall x, In x (tr s) -> In x (tr s1).
Proof.
  induction h as [|c h IH]; intros s s1; cbn [run]; [intros E; injection E as <-; auto|].
  destruct (do_call c e s) as [[z|] s2] eqn:E; [|discriminate]. intros R x H.
  apply (IH _ _ R). exact (mono_do c e s _ s2 E x H).
Qed.

(** ** Calls that wait by themselves *)
Definition hw (l : list (dir * buf)) : list (dir * N * N * N) :=
  map (fun p => (fst p, 0, addr (snd p), size (snd p))) l.
Lemma hw_app l1 l2 : hw (l1 ++ l2) = hw l1 ++ hw l2. Proof. apply map_app. Qed.
Lemma hits_rev d a n l : hits d a n (hw (rev l)) = hits d a n (hw l).
Proof.
  induction l as [|[d' b] l IH]; [reflexivity|]. cbn [rev]. rewrite hw_app, hits_app, IH. cbn [hw map hits fst snd]. unfold hw. lia.
Qed.
Lemma hits_order d a n o : hits d a n (hw (closing_order o)) = hits d a n (hw (bufs_of o)).
Proof. destruct o; cbn [closing_order]; try apply hits_rev; reflexivity. Qed.

Definition refused (t : list ev) : Prop := exists d c l x cb rc, In (Dma (pre_of d) c l x cb rc) t /\ rc <> OK.
Lemma open_all_ok l : forall e s W, fine (tr s) -> bal W (tr s) -> exists rc b s1,
  open_all l e s = ((rc, b), s1) /\ un s1 = un s /\
  (more (W ++ hw l) s s1 /\ is_ok rc = true \/ is_ok rc = false /\ refused (tr s1)).
Proof.
  induction l as [|[d b] l IH]; intros e s W F B; cbn [open_all].
  - unfold ret. do 3 eexists. split; [reflexivity|]. split; [reflexivity|]. left. cbn. rewrite app_nil_r.
    split; [unfold more; auto 10|reflexivity].
  - unfold bind. destruct (dma_pre d (addr b) (size b) e s W F B) as (rc & x & sa & E & Ua & Ma & O).
    rewrite E. destruct (is_ok rc) eqn:R.
    + pose proof Ma as (_ & Fa & Ba & _).
      destruct (IH e sa _ Fa Ba) as (rc2 & b2 & sb & E2 & Ub & H). rewrite E2. unfold ret.
      do 3 eexists. split; [reflexivity|]. rewrite Ub, Ua. split; [reflexivity|].
      destruct H as [[Mb R2]|H]; [left|right; exact H]. split; [|exact R2].
      eapply more_bal; [|exact (more_trans _ _ _ _ _ Ma Mb)].
      intros d' a n. cbn [hw map fst snd mine]. rewrite !hits_app. cbn [hits]. fold (hw l). lia.
    + unfold ret. do 3 eexists. split; [reflexivity|]. split; [exact Ua|]. right. split; [exact R|].
      destruct (dma_step (pre_of d) (addr b) (size b) e s) as (rc' & x' & cb & E').
      rewrite E' in E. injection E as -> -> <-. exists d, (addr b), (size b), x, cb, rc. cbn [tr].
      split; [now left|]. intros ->. discriminate R.
Qed.
Lemma close_all_ok l : forall r e s W, fine (tr s) -> bal (hw l ++ W) (tr s) -> exists rc s1,
  close_all l r e s = (rc, s1) /\ un s1 = un s /\ more W s s1.
Proof.
  induction l as [|[d b] l IH]; intros r e s W F B; cbn [close_all].
  - unfold ret. do 2 eexists. split; [reflexivity|]. split; [reflexivity|]. unfold more. auto 10.
  - unfold bind. destruct (dma_step (post_of d) (addr b) (size b) e s) as (rc & x & cb & ->).
    cbn [hw map app fst snd] in B. fold (hw l) in B.
    pose proof (bal_close _ d _ _ x _ cb rc _ B) as B2.
    match goal with |- context [close_all l ?z e ?sa] =>
      destruct (IH z e sa W) as (rc2 & sb & -> & Ub & Mb); [eapply fine_bal; eauto|exact B2|] end.
    do 2 eexists. split; [reflexivity|]. split; [exact Ub|]. destruct Mb as (P & F2 & B3 & L & X & I). unfold more.
    cbn [pend tr last_sent waiting] in *. split; [exact P|]. split; [exact F2|]. split; [exact B3|].
    split; [exact L|]. split; [exact X|]. intros y H. apply I. now right.
Qed.
Lemma wait_recv_ok n : forall e s r s1, fine (tr s) -> pend s = true -> wait recv n e s = (Some r, s1) ->
  forall W, bal W (tr s) ->
  un s1 = un s /\ fine (tr s1) /\ bal W (tr s1) /\ waiting (tr s1) = None /\ last_sent (tr s1) = last_sent (tr s).
Proof.
  induction n as [|n IH]; intros e s r s1 F P; cbn [wait]; [discriminate|]. unfold bind.
  destruct (recv e s) as [rr sr] eqn:ER.
  destruct (recv_cases _ _ _ _ ER) as [(P' & _ & _)|(_ & a & Es & Hp & _)]; [congruence|].
  assert (Fr : fine (tr sr)) by (rewrite Es; apply fine_quiet; [apply quiet_got|exact F]).
  destruct (rr =? NOTREADY)%Z eqn:N.
  - intros E W B. apply Z.eqb_eq in N.
    destruct (IH e sr r s1 Fr (Hp N) E W) as (U & F1 & B1 & X1 & L1).
    + rewrite Es. apply bal_quiet; [apply quiet_got|exact B].
    + rewrite Es in U, L1. auto.
  - unfold ret. intros E W B. injection E as <- <-. rewrite Es. cbn [un tr waiting last_sent]. rewrite N.
    split; [reflexivity|]. split; [rewrite Es in Fr; exact Fr|].
    split; [apply bal_quiet; [apply quiet_got|exact B]|]. auto.
Qed.
(** What is open now. *)
Definition now (s : st) : list (dir * N * N * N) := if pend s then wins (last_sent (tr s)) (un s) else [].
Lemma inv_now D s : inv D s -> bal (now s) (tr s).
Proof. intros [_ I P]. unfold now. destruct (pend s); [now apply P|now apply I]. Qed.
Lemma inv_more D s s1 : inv D s -> un s1 = un s -> more (now s) s s1 -> inv D s1.
Proof.
  intros [F I P] U (P1 & F1 & B1 & L1 & X1 & I1). unfold now in B1.
  split; [exact F1| |]; rewrite P1, U.
  - intros H. destruct (I H) as [Z _]. rewrite H in B1. auto.
  - intros H. rewrite H in B1. cbn zeta. destruct (P H) as (_ & T & C & Z). rewrite L1, X1.
    split; [exact B1|]. split; [|auto]. intros HD b E d x n Hb Hn. rewrite X1 in E.
    destruct (T HD b E d x n Hb Hn) as (c & cb & H1 & H2). exists c, cb. auto.
Qed.
Lemma direct_inv D o n e s r s1 : inv D s -> direct_call o n e s = (Some r, s1) ->
  ~ refused (tr s1) -> inv D s1.
Proof.
  intros I E NR. pose proof (mono_direct o n) as MO.
  revert E. unfold direct_call, bind. destruct (ext_step1 1 e s) as (rc0 & v & ->).
  apply (inv_ext D s 1 rc0 v) in I. set (s0 := mkSt (pend s) (un s) (Ext 1 rc0 v :: tr s)) in *.
  destruct (is_ok rc0); cbn [negb]; [|unfold ret; intros E; injection E as <- <-; exact I].
  pose proof (inv_now _ _ I) as B. pose proof (i_fine _ _ I) as F.
  destruct (open_all_ok (bufs_of o) e s0 _ F B) as (r1 & b & sa & -> & Ua & [[Ma R1]|[R1 RF]]).
  2:{ rewrite R1. unfold ret at 1. cbv beta iota. rewrite R1. cbv iota. unfold ret at 1. cbv beta iota.
      pose proof (mono_close_all (closing_order o) OK e sa) as MC.
      destruct (close_all (closing_order o) OK e sa) as [p sb]. unfold ret. rewrite R1. intros E. injection E as <- <-.
      exfalso. apply NR. destruct RF as (d & c & l & x & cb & rc & H & Hr). exists d, c, l, x, cb, rc.
      split; [|exact Hr]. exact (MC p sb eq_refl _ H). }
  rewrite R1. pose proof Ma as (Pa & Fa & Ba & La & Xa & Ia).
  assert (CL : forall sx, fine (tr sx) -> bal (now s0 ++ hw (bufs_of o)) (tr sx) -> exists p sy,
     close_all (closing_order o) OK e sx = (p, sy) /\ un sy = un sx /\ more (now s0) sx sy).
  { intros sx Fx Bx. apply close_all_ok; [exact Fx|]. eapply bal_perm; [|exact Bx].
    intros d a m. rewrite !hits_app, hits_order. lia. }
  assert (FIN : forall r0 p sx, fine (tr sx) -> exists z sy,
     (let '(a, s2) := (if is_ok r0 then ext 11 else ret r0) e sx in
      ret (Some (if is_ok a && tells o then p else a)) e s2) = (Some z, sy) /\ un sy = un sx /\
      forall W, bal W (tr sx) -> more W sx sy).
  { intros r0 p sx Fx. destruct (is_ok r0).
    - destruct (ext_step1 11 e sx) as (rc & w & ->). unfold ret. do 2 eexists. split; [reflexivity|].
      split; [reflexivity|]. intros W BW. unfold more. cbn [pend tr last_sent waiting].
      split; [reflexivity|]. split; [apply fine_quiet; [apply quiet_ext|exact Fx]|].
      split; [apply bal_quiet; [apply quiet_ext|exact BW]|]. split; [reflexivity|]. split; [reflexivity|].
      intros y H. now right.
    - unfold ret. do 2 eexists. split; [reflexivity|]. split; [reflexivity|]. intros W BW. unfold more. auto 10. }
  destruct (pend s0) eqn:P0.
  - unfold send. rewrite Pa. cbv iota beta. change (is_ok REQUEST_PENDING) with false. unfold ret at 1. cbv beta iota.
    destruct (CL sa Fa Ba) as (p & sb & -> & Ub & Mb).
    destruct (FIN REQUEST_PENDING p sb ltac:(apply Mb)) as (z & sc & EC & Uc & Mc).
    rewrite EC. intros E. injection E as <- <-.
    apply (inv_more D s0); [exact I|now rewrite Uc, Ub|].
    eapply more_trans; [exact Ma|]. eapply more_trans; [exact Mb|]. apply Mc, Mb.
  - assert (N0 : now s0 = []) by (unfold now; now rewrite P0). rewrite N0 in *. cbn [app] in *.
    destruct (i_idle _ _ I P0) as [Z _].
    destruct (send_ok KPlain b e sa _ Pa Fa Ba) as (r2 & sb & -> & Hs). pose proof Hs as (Ub & Fb & Bb & Ib & Lb & Pb).
    destruct (is_ok r2) eqn:R2.
    + specialize (Pb eq_refl). destruct (Lb Pb) as [L1 _].
      destruct (wait recv n e sb) as [[r3|] sc] eqn:EW; [|unfold ret; discriminate].
      destruct (wait_recv_ok _ _ _ _ _ Fb Pb EW _ Bb) as (Uc & Fc & Bc & Xc & Lc).
      destruct (CL sc Fc Bc) as (p & sd & -> & Ud & Md).
      destruct (FIN r3 p sd ltac:(apply Md)) as (z & se & EC & Ue & Me). rewrite EC.
      intros E. injection E as <- <-.
      pose proof (more_trans _ _ _ _ _ Md (Me _ ltac:(apply Md))) as (Pe & Fe & Be & Le & Xe & _).
      apply inv_closed; auto; [rewrite Ue, Ud, Uc, Ub, Ua; exact Z|].
      intros _. rewrite Le, Lc, L1, Xe, Xc. auto.
    + unfold ret at 1. cbv beta iota. destruct (CL sb Fb Bb) as (p & sd & -> & Ud & Md).
      destruct (FIN r2 p sd ltac:(apply Md)) as (z & se & EC & Ue & Me). rewrite EC.
      intros E. injection E as <- <-.
      pose proof (more_trans _ _ _ _ _ Md (Me _ ltac:(apply Md))) as (Pe & Fe & Be & Le & Xe & _).
      apply inv_closed; auto; [rewrite Ue, Ud, Ub, Ua; exact Z|].
      rewrite Pe, Le, Xe. intros H. destruct (Lb H) as [-> ->]. auto.
Qed.

(** ** One call, a history *)
Lemma to_some_inv m e s r s1 : to_some m e s = (Some r, s1) -> m e s = (r, s1).
Proof. unfold to_some, bind, ret. destruct (m e s) as [a s2]. intros E. now injection E as <- <-. Qed.
Lemma step_inv D c e s r s1 : inv D s -> (D -> with_data c) -> orderly_call c s ->
  (two_step c \/ ~ refused (tr s1)) -> do_call c e s = (Some r, s1) -> inv D s1.
Proof.
  intros I W O T E.
  destruct c; cbn [do_call] in E; try (apply to_some_inv in E); cbn [orderly_call answers] in O.
  - exact (rng_request_inv D _ _ _ _ _ I E).
  - refine (response_inv D KRng _ e s r s1 (closes_a KRng Wr eq_refl) I O E).
  - exact (aes_request_inv D _ _ _ _ _ _ _ I E).
  - exact (response_inv D KAes _ e s r s1 closes_aes I O E).
  - exact (gcm_request_inv D _ _ _ _ _ _ _ _ I E).
  - exact (response_inv D KGcm _ e s r s1 closes_gcm I O E).
  - exact (cmac_request_inv D _ _ _ _ _ I E).
  - exact (response_inv D KCmac _ e s r s1 (closes_a KCmac Rd eq_refl) I O E).
  - exact (sha_request_inv D _ _ _ _ _ I E).
  - exact (response_inv D KSha _ e s r s1 (closes_a KSha Rd eq_refl) I O E).
  - refine (buf_request_inv D _ _ _ _ _ _ _ _ _ I E). reflexivity.
  - exact (response_inv D KBuf _ e s r s1 (closes_buf (fun r _ => r)) I O E).
  - refine (buf_request_inv D _ _ _ _ _ _ _ _ _ I E). reflexivity.
  - exact (response_inv D KBuf _ e s r s1 (closes_buf (fun r r2 => if is_ok r then r2 else r)) I O E).
  - refine (buf_request_inv D _ _ _ _ _ _ _ _ _ I E). intros HD. specialize (W HD). cbn in W.
    destruct (data =? 0) eqn:Z; [apply N.eqb_eq in Z; auto|reflexivity].
  - refine (nvm_add_request_inv D _ _ _ _ _ _ _ _ I E). intros HD. exact (W HD).
  - exact (response_inv D KNvmAdd _ e s r s1 closes_nvm_add I O E).
  - exact (plain_request_inv D _ _ _ _ I E).
  - exact (response_inv D KPlain _ e s r s1 closes_plain I O E).
  - unfold bind, not_pending, ret in E. injection E as <- <-. destruct (i_idle _ _ I O) as [Z B].
    apply inv_closed; cbn [tr un pend]; auto; [apply I|discriminate].
  - unfold cleanup, bind, not_pending, set, ret in E. injection E as <- <-. destruct (i_idle _ _ I O) as [Z B].
    apply inv_closed; cbn [tr un pend]; auto; [apply I|discriminate].
  - destruct T as [[]|T]. exact (direct_inv D _ _ _ _ _ _ I E T).
Qed.
Lemma run_inv D e h : forall s s1, inv D s -> (D -> Forall with_data h) -> orderly e h s ->
  (Forall two_step h \/ ~ refused (tr s1)) -> run e h s = Some s1 -> inv D s1.
Proof.
  induction h as [|c h IH]; intros s s1 I W O T; cbn [run orderly] in *; [intros E; injection E as <-; exact I|].
  destruct O as [O1 O2]. destruct (do_call c e s) as [[z|] s2] eqn:E; [|discriminate]. intros R.
  refine (IH s2 s1 _ _ O2 _ R).
  - refine (step_inv D c e s z s2 I _ O1 _ E).
    + intros HD. specialize (W HD). now inversion W.
    + destruct T as [T|T]; [left; now inversion T|]. right. intros (d & a & l & x & cb & rc & H & Hr).
      apply T. exists d, a, l, x, cb, rc. split; [exact (mono_run e h _ _ R _ H)|exact Hr].
  - intros HD. specialize (W HD). now inversion W.
  - destruct T as [T|T]; [left; now inversion T|auto].
Qed.
Lemma never_refused_not s : never_refused s -> ~ refused (tr s).
Proof. intros H (d & c & l & x & cb & rc & Hi & Hr). apply Hr. apply (H d c l x cb rc). unfold events. now apply in_rev in Hi. Qed.

Lemma reach (D : Prop) e h s : orderly e h start -> calm h s -> (D -> Forall with_data h) -> run e h start = Some s -> inv D s.
Proof.
  intros O C W R. refine (run_inv D e h start s (inv_start D) W O _ R).
  destruct C as [C|C]; [now left|right; now apply never_refused_not].
Qed.
Lemma all_closed_ok s : bal [] (tr s) -> all_closed s.
Proof. intros B d a n. rewrite opened_ev, closed_ev, (B d a n). cbn. lia. Qed.
Lemma all_closed_inv s : all_closed s -> bal [] (tr s).
Proof. intros B d a n. specialize (B d a n). rewrite opened_ev, closed_ev in B. rewrite B. cbn. lia. Qed.

Theorem idle_ok e h s : orderly e h start -> calm h s -> run e h start = Some s -> pend s = false -> all_closed s.
Proof. intros O C R P. apply all_closed_ok. exact (proj2 (i_idle _ _ (reach False e h s O C ltac:(easy) R) P)). Qed.
Theorem extra_ok e h s : orderly e h start -> calm h s -> run e h start = Some s -> none_extra s.
Proof. intros O C R. apply fine_none_extra. apply (reach False e h s O C ltac:(easy) R). Qed.
Theorem held_ok e h s b : orderly e h start -> calm h s -> Forall with_data h -> run e h start = Some s ->
  pend s = true -> waiting (tr s) = Some b ->
  forall d x n, In (d, x, n) b -> 0 < n ->
  exists c cb, In (Dma (pre_of d) c n x cb OK) (events s) /\ is_open d c n s.
Proof.
  intros O C W R P X d x n H Hn. pose proof (reach True e h s O C (fun _ => W) R) as I.
  destruct (i_pend _ _ I P) as (B & T & _). cbn zeta in *.
  destruct (T Logic.I b X d x n H Hn) as (c & cb & H1 & H2). exists c, cb.
  split; [unfold events; now apply in_rev in H2|]. unfold is_open. rewrite opened_ev, closed_ev, (B d c n).
  pose proof (hits_in _ _ _ _ _ H1). lia.
Qed.

(** Unless the client is waiting for a request that went out whole, all is closed. *)
Theorem released_ok e h s : orderly e h start -> calm h s -> run e h start = Some s ->
  waiting (tr s) = None -> all_closed s.
Proof.
  intros O C R X. apply all_closed_ok. pose proof (reach False e h s O C ltac:(easy) R) as I.
  destruct (pend s) eqn:P; [|now apply I].
  destruct (i_pend _ _ I P) as (B & _ & _ & _ & W). cbn zeta in *. now rewrite (W X) in B.
Qed.

(** ** Success *)
Lemma tail_refl (s : st) : exists t, tr s = t ++ tr s. Proof. now exists []. Qed.
Definition grows {A} (m : M A) : Prop := forall e s a s1, m e s = (a, s1) -> exists t, tr s1 = t ++ tr s.
Lemma grows_ret {A} (a : A) : grows (ret a).
Proof. intros e s b s1 E. injection E as <- <-. now exists []. Qed.
Lemma grows_bind {A B} (m : M A) (f : A -> M B) : grows m -> (forall a, grows (f a)) -> grows (bind m f).
Proof.
  intros Hm Hf e s b s2 E. unfold bind in E. destruct (m e s) as [a s1] eqn:E1.
  destruct (Hm e s a s1 E1) as [t1 T1]. destruct (Hf a e s1 b s2 E) as [t2 T2].
  exists (t2 ++ t1). now rewrite T2, T1, app_assoc.
Qed.
Lemma grows_dma op c l : grows (dma op c l).
Proof. intros e s a s1 E. destruct (dma_step op c l e s) as (rc & y & cb & E2). rewrite E2 in E. injection E as <- <-. eexists [_]; reflexivity. Qed.
Lemma grows_ext2 k : grows (ext2 k).
Proof. intros e s a s1 E. destruct (ext_step k e s) as (rc & y & E2). rewrite E2 in E. injection E as <- <-. eexists [_]; reflexivity. Qed.
Lemma grows_get : grows get. Proof. intros e s a s1 E. injection E as <- <-. now exists []. Qed.
Lemma grows_set f : grows (set f). Proof. intros e s a s1 E. injection E as <- <-. now exists []. Qed.
Ltac grows_tac :=
  repeat first
    [ apply grows_ret | apply grows_dma | apply grows_ext2 | apply grows_get | apply grows_set
    | apply grows_bind; [|intros ?]
    | match goal with
      | |- grows (if ?b then _ else _) => destruct b
      | |- grows (match ?p with (_, _) => _ end) => destruct p
      | |- grows (ext _) => unfold ext
      | |- grows (post _ _ _) => unfold post
      | |- grows (close_a _) => unfold close_a
      | |- grows (close_b _) => unfold close_b
      | |- grows (close_c _) => unfold close_c
      | |- grows post_m => unfold post_m, async_post
      | |- grows post_d => unfold post_d, async_post
      end ].
Lemma grows_close_all l : forall r, grows (close_all l r).
Proof. induction l as [|[d b] l IH]; intros r; cbn [close_all]; grows_tac; apply IH. Qed.

(** A Response that returns success has received the reply. *)
Definition honest (f : Z -> M Z) : Prop :=
  (forall r, grows (f r)) /\
  (forall r e s s1, f r e s = (OK, s1) -> r = OK) /\
  (forall r e s a s1, f r e s = (a, s1) -> pend s1 = pend s).
Lemma response_success f e s s1 : honest f -> response f e s = (OK, s1) ->
  pend s = true /\ pend s1 = false /\ since s s1 (Got (Reply true true) OK).
Proof.
  intros (G & H & HP). unfold response, bind, ret.
  destruct (ext_step 10 e s) as (rc0 & v & ->). cbn [snd].
  set (s0 := mkSt (pend s) (un s) (Ext 10 rc0 v :: tr s)).
  destruct (v =? 0); cbn [negb]; [|discriminate].
  destruct (recv e s0) as [rr sr] eqn:ER.
  destruct (recv_cases _ _ _ _ ER) as [(P & -> & ->)|(P & a & Es & Hp & Ho)]; [discriminate|].
  destruct (rr =? NOTREADY)%Z eqn:N; [intros E; injection E as -> <-; discriminate N|].
  destruct (is_ok rr) eqn:R.
  - apply is_ok_eq in R. subst rr. destruct (Ho eq_refl) as [-> Po].
    destruct (ext_step1 11 e sr) as (r2 & w & ->). intros E.
    pose proof (HP _ _ _ _ _ E) as P1. cbn [pend] in P1.
    destruct (G r2 _ _ _ _ E) as [t T]. cbn [tr] in T. split; [exact P|]. split; [congruence|].
    rewrite Es in T. cbn [tr s0] in T.
    exists (t ++ [Ext 11 r2 w; Got (Reply true true) OK; Ext 10 rc0 v]). rewrite <- app_assoc. cbn [app].
    split; [exact T|]. apply in_app_iff. right. right. now left.
  - intros E. apply H in E. subst rr. discriminate R.
Qed.
Lemma close_a_pend d e s : pend (snd (close_a d e s)) = pend s.
Proof.
  unfold close_a, post, bind, get, set, ret. destruct (0 <? w2 (un s)); [|reflexivity].
  destruct (dma_step (post_of d) (w1 (un s)) (w2 (un s)) e s) as (? & ? & ? & ->). reflexivity.
Qed.
Lemma close_b_pend d e s : pend (snd (close_b d e s)) = pend s.
Proof.
  unfold close_b, post, bind, get, set, ret. destruct (0 <? w5 (un s)); [|reflexivity].
  destruct (dma_step (post_of d) (w4 (un s)) (w5 (un s)) e s) as (? & ? & ? & ->). reflexivity.
Qed.
Lemma close_c_pend d e s : pend (snd (close_c d e s)) = pend s.
Proof.
  unfold close_c, post, bind, get, set, ret. destruct (0 <? w8 (un s)); [|reflexivity].
  destruct (dma_step (post_of d) (w7 (un s)) (w8 (un s)) e s) as (? & ? & ? & ->). reflexivity.
Qed.
Lemma post_m_pend e s : pend (snd (post_m e s)) = pend s.
Proof.
  unfold post_m, async_post, bind, get, set, ret. destruct (w2 (un s) =? 0); [reflexivity|].
  destruct (dma_step (op_of (w3 (un s))) (w1 (un s)) (w2 (un s)) e s) as (? & ? & ? & ->). reflexivity.
Qed.
Lemma post_d_pend e s : pend (snd (post_d e s)) = pend s.
Proof.
  unfold post_d, async_post, bind, get, set, ret. destruct (w6 (un s) =? 0); [reflexivity|].
  destruct (dma_step (op_of (w7 (un s))) (w5 (un s)) (w6 (un s)) e s) as (? & ? & ? & ->). reflexivity.
Qed.
Ltac pend_tac := unfold bind, ret;
  repeat match goal with
  | |- context [close_a ?d ?e ?s] => pose proof (close_a_pend d e s); destruct (close_a d e s) as [? ?]
  | |- context [close_b ?d ?e ?s] => pose proof (close_b_pend d e s); destruct (close_b d e s) as [? ?]
  | |- context [close_c ?d ?e ?s] => pose proof (close_c_pend d e s); destruct (close_c d e s) as [? ?]
  | |- context [post_m ?e ?s] => pose proof (post_m_pend e s); destruct (post_m e s) as [? ?]
  | |- context [post_d ?e ?s] => pose proof (post_d_pend e s); destruct (post_d e s) as [? ?]
  end; cbn [snd] in *.
Ltac honest_tac :=
  split; [intros ?; grows_tac|split];
  [intros ? ? ? ?; pend_tac; intros EE; injection EE; intros; try congruence
  |intros ? ? ? ? ?; pend_tac; intros EE; injection EE; intros; subst; congruence].
Theorem success_ok c k e s s1 : answers c = Some k -> do_call c e s = (Some OK, s1) ->
  pend s = true /\ pend s1 = false /\ since s s1 (Got (Reply true true) OK).
Proof.
  intros A E. destruct c; try discriminate A; cbn [do_call] in E; apply to_some_inv in E; revert E;
    apply response_success; try (honest_tac; fail).
  split; [intros ?; grows_tac|split].
  - intros ? ? ? ?; pend_tac. intros EE. injection EE as E1 E2. destruct (is_ok r) eqn:R; [now apply is_ok_eq|exact E1].
  - intros ? ? ? ? ?; pend_tac; intros EE; injection EE; intros; subst; congruence.
Qed.

Theorem delivered_ok e h s s1 b : orderly e h start -> calm h s -> Forall with_data h -> run e h start = Some s ->
  waiting (tr s) = Some b -> last_sent (tr s) = KBuf -> do_call WriteResponse e s = (Some OK, s1) ->
  forall x n, In (Wr, x, n) b -> 0 < n ->
  exists c cb x' cb', In (Dma WrPre c n x cb OK) (events s) /\ since s s1 (Dma WrPost c n x' cb' OK).
Proof.
  intros O C W R X L E x n H Hn. destruct (success_ok WriteResponse KBuf e s s1 eq_refl E) as (P & _ & _).
  pose proof (reach True e h s O C (fun _ => W) R) as I.
  destruct (i_pend _ _ I P) as (B & T & Co & _). cbn zeta in *. rewrite L in *.
  destruct (T Logic.I b X Wr x n H Hn) as (c & cb & H1 & H2).
  cbn [wins codes] in *. unfold one in H1. destruct (0 <? w2 (un s)) eqn:Z; [|destruct H1].
  destruct H1 as [H1|[]]. injection H1 as D1 D2 D3 D4.
  assert (W3 : op_of (w3 (un s)) = WrPost).
  { apply N.ltb_lt in Z. rewrite (op_dir _ (Co Z)), D1. reflexivity. }
  cbn [do_call] in E. apply to_some_inv in E. revert E. unfold write_response, response, bind, ret.
  destruct (ext_step 10 e s) as (rc0 & v & ->). cbn [snd].
  set (s0 := mkSt (pend s) (un s) (Ext 10 rc0 v :: tr s)).
  destruct (v =? 0); cbn [negb]; [|discriminate].
  destruct (recv e s0) as [rr sr] eqn:ER.
  destruct (recv_cases _ _ _ _ ER) as [(P0 & -> & ->)|(P0 & a & Es & Hp & Ho)]; [discriminate|].
  destruct (rr =? NOTREADY)%Z eqn:NR; [intros E; injection E as -> <-; discriminate NR|].
  destruct (is_ok rr) eqn:RR.
  - destruct (ext_step1 11 e sr) as (r2 & w & ->). rewrite Es.
    unfold post_m, async_post, bind, get, set, ret. cbn [un s0].
    replace (w2 (un s) =? 0) with false by (apply N.ltb_lt in Z; symmetry; apply N.eqb_neq; lia).
    rewrite W3, D3, D4.
    match goal with |- context [dma WrPost c n e ?sx] =>
      destruct (dma_step WrPost c n e sx) as (rc & x' & cb' & ->) end.
    destruct (is_ok r2) eqn:R2.
    + intros E. injection E as -> <-. exists c, cb, x', cb'.
      split; [unfold events; now apply in_rev in H2|].
      cbn [tr s0]. eexists [_; _; _; _]. split; [reflexivity|]. now left.
    + intros E. injection E as -> <-. discriminate R2.
  - destruct (post_m e sr) as [rp sp]. rewrite RR. intros E. injection E as -> <-. discriminate RR.
Qed.

Lemma open_all_grows l : grows (open_all l).
Proof. induction l as [|[d b] l IH]; cbn [open_all]; grows_tac; exact IH. Qed.
Lemma wait_recv_success n : forall e s s1, wait recv n e s = (Some OK, s1) ->
  since s s1 (Got (Reply true true) OK) /\ pend s1 = false.
Proof.
  induction n as [|n IH]; intros e s s1; cbn [wait]; [discriminate|]. unfold bind.
  destruct (recv e s) as [rr sr] eqn:ER.
  destruct (recv_cases _ _ _ _ ER) as [(P0 & -> & ->)|(P0 & a & Es & Hp & Ho)].
  - apply IH.
  - destruct (rr =? NOTREADY)%Z.
    + intros E. destruct (IH e sr s1 E) as [(t & T & H) P]. split; [|exact P].
      rewrite Es in T. cbn [tr] in T. exists (t ++ [Got a rr]). rewrite <- app_assoc. split; [exact T|].
      apply in_app_iff. now left.
    + unfold ret. intros E. injection E as -> <-. destruct (Ho eq_refl) as [-> P]. split; [|exact P].
      rewrite Es. exists [Got (Reply true true) OK]. split; [reflexivity|now left].
Qed.
Lemma since_grow s s1 s2 x t : since s s1 x -> tr s2 = t ++ tr s1 -> since s s2 x.
Proof. intros (u & U & H) T. exists (t ++ u). rewrite T, U, app_assoc. split; [reflexivity|]. apply in_app_iff. now right. Qed.
Lemma since_base s0 s s1 x t : since s s1 x -> tr s = t ++ tr s0 -> since s0 s1 x.
Proof. intros (u & U & H) T. exists (u ++ t). rewrite U, T, app_assoc. split; [reflexivity|]. apply in_app_iff. now left. Qed.
Lemma grows_send k b : grows (send k b).
Proof.
  intros e s a s1 E. unfold send in E. destruct (pend s); [injection E as <- <-; now exists []|].
  destruct (e_send e (tr s)) as [rc tm]. destruct (is_ok rc); injection E as <- <-; eexists [_]; reflexivity.
Qed.
(** Success of a call that waits: the reply came; for the stateful signatures the output was handed back. *)
Theorem direct_ok o n e s s1 : do_call (Direct o n) e s = (Some OK, s1) ->
  since s s1 (Got (Reply true true) OK) /\
  (tells o = true -> forall b, In (Wr, b) (bufs_of o) ->
    exists x cb, since s s1 (Dma WrPost (addr b) (size b) x cb OK)).
Proof.
  cbn [do_call]. unfold direct_call, bind.
  destruct (ext_step1 1 e s) as (rc0 & v & ->).
  set (s0 := mkSt (pend s) (un s) (Ext 1 rc0 v :: tr s)).
  assert (T0 : tr s0 = [Ext 1 rc0 v] ++ tr s) by reflexivity. clearbody s0.
  destruct (is_ok rc0) eqn:R0; cbn [negb]; [|unfold ret; intros E; injection E as -> <-; discriminate R0].
  destruct (open_all (bufs_of o) e s0) as [[r1 l] sa] eqn:EO.
  destruct (open_all_grows _ _ _ _ _ EO) as [t1 T1].
  destruct (is_ok r1) eqn:R1.
  2:{ unfold ret at 1. cbv beta iota. rewrite R1. cbv iota. unfold ret at 1. cbv beta iota.
      destruct (close_all (closing_order o) OK e sa) as [p sb]. rewrite R1. unfold ret. rewrite R1. cbn [andb].
      intros E. injection E as -> <-. discriminate R1. }
  destruct (send KPlain l e sa) as [r2 sb] eqn:ES. destruct (grows_send _ _ _ _ _ _ ES) as [t2 T2].
  destruct (is_ok r2) eqn:R2.
  2:{ unfold ret at 1. cbv beta iota.
      destruct (close_all (closing_order o) OK e sb) as [p sc]. rewrite R2. unfold ret. rewrite R2. cbn [andb].
      intros E. injection E as -> <-. discriminate R2. }
  destruct (wait recv n e sb) as [[r3|] sc] eqn:EW; [|unfold ret; discriminate].
  destruct (close_all (closing_order o) OK e sc) as [p sd] eqn:EC.
  destruct (grows_close_all _ _ _ _ _ _ EC) as [t4 T4].
  destruct (is_ok r3) eqn:R3.
  2:{ unfold ret. rewrite R3. cbn [andb]. intros E. injection E as -> <-. discriminate R3. }
  apply is_ok_eq in R3. subst r3. destruct (wait_recv_success _ _ _ _ EW) as [SI _].
  destruct (ext_step1 11 e sd) as (r4 & w & ->). unfold ret. intros E.
  injection E as E <-. cbn [tr].
  assert (S1 : since s sc (Got (Reply true true) OK)).
  { apply (since_base s sb sc _ (t2 ++ t1 ++ [Ext 1 rc0 v])); [exact SI|]. now rewrite T2, T1, T0, !app_assoc. }
  split.
  - apply (since_grow s sc _ _ (Ext 11 r4 w :: t4)); [exact S1|]. cbn [tr app]. now rewrite T4.
  - intros TL b Hb. rewrite TL, andb_true_r in E.
    assert (R4 : r4 = OK) by (destruct (is_ok r4) eqn:X; [now apply is_ok_eq|subst; discriminate X]). subst r4.
    change (is_ok OK) with true in E. cbv iota in E. subst p.
    assert (S2 : exists x cb, since sc sd (Dma WrPost (addr b) (size b) x cb OK)).
    { destruct o; try discriminate TL; cbn [bufs_of closing_order] in *; cbn [close_all] in EC; unfold bind in EC.
      - destruct Hb as [Hb|[]]. injection Hb as <-. revert EC.
        destruct (dma_step (post_of Wr) (addr pub) (size pub) e sc) as (rc & x & cb & ->). unfold ret.
        intros EC. injection EC as -> <-. exists x, cb. eexists [_]. split; [reflexivity|now left].
      - destruct Hb as [Hb|[Hb|[]]]; [discriminate Hb|]. injection Hb as <-. revert EC.
        destruct (dma_step (post_of Rd) (addr msg) (size msg) e sc) as (rca & xa & cba & ->).
        match goal with |- context [dma (post_of Wr) (addr sig) (size sig) e ?sx] =>
          destruct (dma_step (post_of Wr) (addr sig) (size sig) e sx) as (rc & x & cb & ->) end. unfold ret.
        intros EC. injection EC as -> <-. exists x, cb. eexists [_; _]. split; [reflexivity|now left]. }
    destruct S2 as (x & cb & S2). exists x, cb.
    assert (T5 : exists t5, tr sc = t5 ++ tr s) by (destruct S1 as (t5 & T5 & _); eauto).
    destruct T5 as [t5 T5].
    apply (since_grow s sd _ _ [Ext 11 OK w]); [|reflexivity].
    apply (since_base s sc sd _ t5); [exact S2|exact T5].
Qed.

(** ** Sending and waiting *)
Definition via (k : kind) (s s1 : st) : Prop :=
  last_sent (tr s1) = k \/ (last_sent (tr s1) = last_sent (tr s) /\ (pend s1 = true -> pend s = true)).
Definition only (k : kind) {A} (m : M A) : Prop := forall e s a s1, m e s = (a, s1) -> via k s s1.
Lemma only_ret k {A} (a : A) : only k (ret a).
Proof. intros e s b s1 E. injection E as <- <-. right. auto. Qed.
Lemma only_bind k {A B} (m : M A) (f : A -> M B) : only k m -> (forall a, only k (f a)) -> only k (bind m f).
Proof.
  intros Hm Hf e s b s2 E. unfold bind in E. destruct (m e s) as [a s1] eqn:E1.
  destruct (Hf a e s1 b s2 E) as [H|[H HP]]; [now left|].
  destruct (Hm e s a s1 E1) as [H1|[H1 HP1]]; [left; congruence|right]. split; [congruence|auto].
Qed.
Lemma only_dma k op c l : only k (dma op c l).
Proof. intros e s a s1 E. destruct (dma_step op c l e s) as (rc & y & cb & E2). rewrite E2 in E. injection E as <- <-. right. auto. Qed.
Lemma only_ext2 k j : only k (ext2 j).
Proof. intros e s a s1 E. destruct (ext_step j e s) as (rc & y & E2). rewrite E2 in E. injection E as <- <-. right. auto. Qed.
Lemma only_get k : only k get. Proof. intros e s a s1 E. injection E as <- <-. right. auto. Qed.
Lemma only_set k f : only k (set f). Proof. intros e s a s1 E. injection E as <- <-. right. auto. Qed.
Lemma only_pending k : only k pending. Proof. intros e s a s1 E. injection E as <- <-. right. auto. Qed.
Lemma only_send k b : only k (send k b).
Proof.
  intros e s a s1 E. unfold send in E. destruct (pend s) eqn:P; [injection E as <- <-; right; auto|].
  destruct (e_send e (tr s)) as [rc tm]. destruct (is_ok rc) eqn:R; injection E as <- <-.
  - left. cbn [tr last_sent]. now rewrite R.
  - right. cbn [tr last_sent pend]. rewrite R. split; [reflexivity|discriminate].
Qed.
Lemma only_recv k : only k recv.
Proof.
  intros e s a s1 E. destruct (recv_cases _ _ _ _ E) as [(_ & _ & ->)|(P & y & Es & _)]; [right; auto|].
  right. rewrite Es. cbn [tr last_sent]. auto.
Qed.
Ltac only_tac :=
  repeat first
    [ apply only_ret | apply only_dma | apply only_ext2 | apply only_get | apply only_set | apply only_pending
    | apply only_send | apply only_recv | apply only_bind; [|intros ?]
    | match goal with
      | |- only _ (if ?b then _ else _) => destruct b
      | |- only _ (match ?p with (_, _) => _ end) => destruct p
      | |- only _ (early _ _) => unfold early
      | |- only _ (ext _) => unfold ext
      | |- only _ (acquire _ _ _ _ _) => unfold acquire
      | |- only _ (post_if _ _ _ _) => unfold post_if
      | |- only _ (post _ _ _) => unfold post
      | |- only _ (close_a _) => unfold close_a
      | |- only _ (close_b _) => unfold close_b
      | |- only _ (close_c _) => unfold close_c
      | |- only _ (async_pre _ _ _ _) => unfold async_pre
      | |- only _ post_m => unfold post_m, async_post
      | |- only _ post_d => unfold post_d, async_post
      | |- only _ (response _) => unfold response
      end ].
Lemma request_only rq rs k : pair_of rq = Some rs -> answers rs = Some k -> only k (do_call rq).
Proof.
  intros P A. destruct rq; try discriminate P; injection P as <-; injection A as <-; cbn [do_call];
    unfold to_some, rng_request, aes_request, gcm_request, cmac_request, sha_request, nvm_read_request, buf_request,
    nvm_add_request, plain_request; only_tac.
Qed.
Lemma response_only c k : answers c = Some k -> forall e s a s1, do_call c e s = (a, s1) ->
  (pend s = true -> last_sent (tr s) = k) -> pend s1 = true -> last_sent (tr s1) = k.
Proof.
  intros A. assert (H : only k (do_call c)).
  { destruct c; try discriminate A; cbn [do_call];
    unfold to_some, rng_response, aes_response, gcm_response, cmac_response, sha_response, read_response, write_response,
      nvm_add_response, plain_response; only_tac. }
  intros e s a s1 E L P. destruct (H e s a s1 E) as [V|[V VP]]; [exact V|]. rewrite V. auto.
Qed.
Lemma response_done D k f e s r s1 : good_arguments e -> closes k f -> inv D s ->
  (pend s = true -> last_sent (tr s) = k) -> response f e s = (r, s1) -> r = NOTREADY \/ bal [] (tr s1).
Proof.
  intros GA C I0 K. unfold response, bind, ret, ext2. rewrite GA. cbn [N.eqb negb].
  set (s0 := mkSt (pend s) (un s) (Ext 10 _ _ :: tr s)).
  assert (I : inv D s0) by (apply inv_ext; exact I0).
  assert (P0 : pend s0 = pend s) by reflexivity.
  assert (L0 : last_sent (tr s0) = last_sent (tr s)) by reflexivity. clearbody s0.
  destruct (recv e s0) as [rr sr] eqn:ER.
  destruct (recv_cases _ _ _ _ ER) as [(P & -> & ->)|(P & a & Es & Hp & _)].
  - cbn [Z.eqb Pos.eqb NOTREADY]. intros E. injection E as <- <-. now left.
  - rewrite P0 in P. specialize (K P). rewrite <- L0 in K. rewrite <- P0 in P.
    destruct I as [F _ IP]. destruct (IP P) as (B & T & Co & Z & WN). cbn zeta in *. rewrite K in *.
    destruct (rr =? NOTREADY)%Z eqn:N.
    + intros E. injection E as <- <-. apply Z.eqb_eq in N. now left.
    + assert (HS : fine (tr sr) /\ bal (wins k (un sr)) (tr sr) /\ un sr = un s0).
      { rewrite Es. cbn [un tr].
        split; [apply fine_quiet; [apply quiet_got|exact F]|].
        split; [apply bal_quiet; [apply quiet_got|exact B]|]. auto. }
      assert (HX : exists r2 sx, (if is_ok rr then ext 11 else fun _ s => (rr, s)) e sr = (r2, sx) /\
        fine (tr sx) /\ bal (wins k (un sx)) (tr sx) /\ un sx = un s0).
      { destruct (is_ok rr).
        - destruct (ext_step1 11 e sr) as (r2 & v2 & ->). do 2 eexists. split; [reflexivity|].
          destruct HS as (F2 & B2 & U2). cbn [un tr].
          split; [apply fine_quiet; [apply quiet_ext|exact F2]|].
          split; [apply bal_quiet; [apply quiet_ext|exact B2]|]. auto.
        - do 2 eexists. split; [reflexivity|]. exact HS. }
      destruct HX as (r2 & sx & -> & F2 & B2 & U2).
      intros E. rewrite <- U2 in Co, Z.
      destruct (C e sx r2 r s1 F2 B2 Co Z E) as (_ & _ & B3 & _). now right.
Qed.
Lemma do_response_done D c k e s r s1 : good_arguments e -> answers c = Some k -> inv D s ->
  (pend s = true -> last_sent (tr s) = k) -> do_call c e s = (Some r, s1) -> r = NOTREADY \/ bal [] (tr s1).
Proof.
  intros GA A I K E.
  destruct c; try discriminate A; injection A as <-; cbn [do_call] in E; apply to_some_inv in E.
  - exact (response_done D _ _ e s r s1 GA (closes_a KRng Wr eq_refl) I K E).
  - exact (response_done D _ _ e s r s1 GA closes_aes I K E).
  - exact (response_done D _ _ e s r s1 GA closes_gcm I K E).
  - exact (response_done D _ _ e s r s1 GA (closes_a KCmac Rd eq_refl) I K E).
  - exact (response_done D _ _ e s r s1 GA (closes_a KSha Rd eq_refl) I K E).
  - exact (response_done D _ _ e s r s1 GA (closes_buf (fun r _ => r)) I K E).
  - exact (response_done D _ _ e s r s1 GA (closes_buf (fun r r2 => if is_ok r then r2 else r)) I K E).
  - exact (response_done D _ _ e s r s1 GA closes_nvm_add I K E).
  - exact (response_done D _ _ e s r s1 GA closes_plain I K E).
Qed.
Lemma orderly_answers c k s : answers c = Some k -> (pend s = true -> last_sent (tr s) = k) -> orderly_call c s.
Proof. intros A H. destruct c; try discriminate A; injection A as <-; exact H. Qed.
Lemma two_answers c k : answers c = Some k -> two_step c.
Proof. destruct c; cbn; auto; discriminate. Qed.
Lemma two_pair rq rs : pair_of rq = Some rs -> two_step rq /\ forall s, orderly_call rq s.
Proof. destruct rq; cbn; try discriminate; intros _; split; auto. Qed.
Lemma answers_pair rq rs : pair_of rq = Some rs -> exists k, answers rs = Some k.
Proof. destruct rq; cbn; try discriminate; intros E; injection E as <-; eexists; reflexivity. Qed.
Lemma wait_done k c n : answers c = Some k -> forall e s r s1, good_arguments e -> inv False s ->
  (pend s = true -> last_sent (tr s) = k) ->
  wait (x <- do_call c;; ret (match x with Some z => z | None => NOTREADY end)) n e s = (Some r, s1) -> bal [] (tr s1).
Proof.
  intros A. induction n as [|n IH]; intros e s r s1 GA I K; cbn [wait]; [discriminate|].
  unfold bind at 1 2. destruct (do_call c e s) as [o s2] eqn:E.
  assert (HO : exists z, o = Some z).
  { destruct c; try discriminate A; cbn [do_call] in E; unfold to_some, bind, ret in E;
      match type of E with context [let '(_, _) := ?m in _] => destruct m as [? ?] end; injection E as <- <-; eauto. }
  destruct HO as [z ->]. unfold ret at 1. cbv beta iota.
  pose proof (response_only c k A e s _ s2 E K) as K2.
  assert (I2 : inv False s2).
  { refine (step_inv False c e s z s2 I _ (orderly_answers c k s A K) (or_introl (two_answers c k A)) E). easy. }
  destruct (do_response_done False c k e s z s2 GA A I K E) as [->|B].
  - cbn [Z.eqb Pos.eqb NOTREADY]. intros EW. exact (IH e s2 r s1 GA I2 K2 EW).
  - destruct (z =? NOTREADY)%Z.
    + intros EW. exact (IH e s2 r s1 GA I2 K2 EW).
    + unfold ret. intros EW. injection EW as <- <-. exact B.
Qed.
(** A request that went out although its function reports an error. *)
Definition still {A} (m : M A) : Prop :=
  forall e s a s1, m e s = (a, s1) -> pend s1 = pend s /\ waiting (tr s1) = waiting (tr s).
Definition frank (m : M Z) : Prop :=
  forall e s r s1, pend s = false -> m e s = (r, s1) -> pend s1 = true -> is_ok r = false -> waiting (tr s1) = None.
Lemma still_ret {A} (a : A) : still (ret a).
Proof. intros e s b s1 E. injection E as <- <-. auto. Qed.
Lemma still_bind {A B} (m : M A) (f : A -> M B) : still m -> (forall a, still (f a)) -> still (bind m f).
Proof.
  intros Hm Hf e s b s2 E. unfold bind in E. destruct (m e s) as [a s1] eqn:E1.
  destruct (Hf a e s1 b s2 E) as [H1 H2]. destruct (Hm e s a s1 E1) as [H3 H4]. split; congruence.
Qed.
Lemma still_dma op c l : still (dma op c l).
Proof. intros e s a s1 E. destruct (dma_step op c l e s) as (rc & y & cb & E2). rewrite E2 in E. injection E as <- <-. auto. Qed.
Lemma still_ext2 j : still (ext2 j).
Proof. intros e s a s1 E. destruct (ext_step j e s) as (rc & y & E2). rewrite E2 in E. injection E as <- <-. auto. Qed.
Lemma still_get : still get. Proof. intros e s a s1 E. injection E as <- <-. auto. Qed.
Lemma still_set f : still (set f). Proof. intros e s a s1 E. injection E as <- <-. auto. Qed.
Lemma still_pending : still pending. Proof. intros e s a s1 E. injection E as <- <-. auto. Qed.
Ltac still_tac :=
  repeat first
    [ apply still_ret | apply still_dma | apply still_ext2 | apply still_get | apply still_set | apply still_pending
    | apply still_bind; [|intros ?]
    | match goal with
      | |- still (if ?b then _ else _) => destruct b
      | |- still (match ?p with (_, _) => _ end) => destruct p
      | |- still (ext _) => unfold ext
      | |- still (acquire _ _ _ _ _) => unfold acquire
      | |- still (post_if _ _ _ _) => unfold post_if
      | |- still (post _ _ _) => unfold post
      | |- still (close_a _) => unfold close_a
      | |- still (async_pre _ _ _ _) => unfold async_pre
      | |- still post_m => unfold post_m, async_post
      | |- still post_d => unfold post_d, async_post
      end ].
Lemma frank_ret r : frank (ret r).
Proof. intros e s b s1 P E. injection E as <- <-. congruence. Qed.
Lemma frank_send k b : frank (send k b).
Proof.
  intros e s r s1 P E. unfold send in E. rewrite P in E.
  destruct (e_send e (tr s)) as [rc tm]. destruct (is_ok rc) eqn:R; injection E as <- <-; cbn [pend tr waiting].
  - intros _ ->. now rewrite andb_false_r.
  - discriminate.
Qed.
Lemma frank_first {A} (m : M A) f : still m -> (forall a, frank (f a)) -> frank (bind m f).
Proof.
  intros Hm Hf e s r s2 P E. unfold bind in E. destruct (m e s) as [a s1] eqn:E1.
  apply (Hf a e s1 r s2); [|exact E]. destruct (Hm e s a s1 E1) as [H _]. congruence.
Qed.
Lemma frank_last {A} (m : M Z) (c : Z -> M A) : frank m -> (forall r, still (c r)) ->
  frank (bind m (fun r => bind (c r) (fun _ => ret r))).
Proof.
  intros Hm Hc e s r s2 P E. unfold bind, ret in E. destruct (m e s) as [a s1] eqn:E1.
  destruct (c a e s1) as [x s3] eqn:E2. injection E as <- <-. destruct (Hc a e s1 x s3 E2) as [H1 H2].
  intros P2 R. rewrite H2. apply (Hm e s a s1); auto. congruence.
Qed.
Ltac frank_tac :=
  repeat first
    [ apply frank_ret | apply frank_send
    | match goal with
      | |- frank (if ?b then _ else _) => destruct b
      | |- frank (match ?p with (_, _) => _ end) => destruct p
      | |- frank (early _ _) => unfold early
      end
    | apply frank_last; [|intros ?; solve [still_tac]]
    | apply frank_first; [solve [still_tac]|intros ?] ].
Lemma frank_some (m : M Z) e s rc s2 : frank m -> pend s = false -> to_some m e s = (Some rc, s2) -> pend s2 = true ->
  is_ok rc = false -> waiting (tr s2) = None.
Proof. intros H P E. apply to_some_inv in E. exact (H e s rc s2 P E). Qed.
Lemma request_tells rq rs : pair_of rq = Some rs -> forall e s rc s2, pend s = false -> do_call rq e s = (Some rc, s2) ->
  pend s2 = true -> is_ok rc = false -> waiting (tr s2) = None.
Proof.
  intros P e s rc s2. destruct rq; try discriminate P; cbn [do_call]; apply frank_some;
    unfold rng_request, aes_request, gcm_request, cmac_request, sha_request, nvm_read_request, buf_request,
    nvm_add_request, plain_request; frank_tac.
Qed.
Theorem blocking_ok e h s rq rs n r s1 : orderly e h start -> calm h s -> run e h start = Some s -> pend s = false ->
  good_arguments e -> pair_of rq = Some rs -> blocking rq rs n e s = (Some r, s1) -> all_closed s1.
Proof.
  intros O C R P GA PR. pose proof (reach False e h s O C ltac:(easy) R) as I.
  destruct (answers_pair _ _ PR) as [k A]. destruct (two_pair _ _ PR) as [T2 OR].
  unfold blocking, bind, pending. destruct (do_call rq e s) as [o s2] eqn:E.
  destruct o as [rc|]; [|unfold ret; discriminate].
  assert (I2 : inv False s2) by (refine (step_inv False rq e s rc s2 I _ (OR s) (or_introl T2) E); easy).
  pose proof (request_only rq rs k PR A e s _ s2 E) as V.
  assert (K : pend s2 = true -> last_sent (tr s2) = k).
  { intros H. destruct V as [V|[_ V]]; [exact V|]. specialize (V H). congruence. }
  destruct (is_ok rc && pend s2) eqn:X.
  - intros EW. apply all_closed_ok. exact (wait_done k rs n A e s2 r s1 GA I2 K EW).
  - unfold ret. intros EE. injection EE as <- <-. apply all_closed_ok.
    destruct (pend s2) eqn:P2; [|now apply I2].
    rewrite andb_true_r in X.
    assert (WN : waiting (tr s2) = None).
    { unfold via in V. clear V. destruct (is_ok rc) eqn:RC; [discriminate X|].
      exact (request_tells rq rs PR e s rc s2 P E P2 RC). }
    destruct (i_pend _ _ I2 P2) as (B & _ & _ & _ & W). cbn zeta in *. now rewrite (W WN) in B.
Qed.

(** ** Which buffers are opened *)
Definition opens (U : list (dir * N * N)) {A} (m : M A) : Prop := forall e s a s1, m e s = (a, s1) ->
  exists t, tr s1 = t ++ tr s /\ forall d c n x cb rc, In (Dma (pre_of d) c n x cb rc) t -> In (d, c, n) U.
Ltac opens_nil := exists []; split; [reflexivity|intros ? ? ? ? ? ? []].
Ltac opens_one := eexists [_]; split; [reflexivity|intros ? ? ? ? ? ? [?|[]]; discriminate].
Lemma opens_ret U {A} (a : A) : opens U (ret a).
Proof. intros e s b s1 E. injection E as <- <-. opens_nil. Qed.
Lemma opens_bind U {A B} (m : M A) (f : A -> M B) : opens U m -> (forall a, opens U (f a)) -> opens U (bind m f).
Proof.
  intros Hm Hf e s b s2 E. unfold bind in E. destruct (m e s) as [a s1] eqn:E1.
  destruct (Hm e s a s1 E1) as (t1 & T1 & H1). destruct (Hf a e s1 b s2 E) as (t2 & T2 & H2).
  exists (t2 ++ t1). split; [rewrite T2, T1; apply app_assoc|]. intros d c n x cb rc I.
  apply in_app_or in I as [I|I]; eauto.
Qed.
Lemma opens_pre U d c l : In (d, c, l) U -> opens U (dma (pre_of d) c l).
Proof.
  intros HI e s a s1 E. destruct (dma_step (pre_of d) c l e s) as (rc & y & cb & E2). rewrite E2 in E. injection E as <- <-.
  eexists [_]. split; [reflexivity|]. intros d2 c2 n2 x2 cb2 rc2 [H|[]]. injection H as H -> -> _ _ _.
  destruct d, d2; try discriminate H; exact HI.
Qed.
Lemma opens_post U op c l : (forall d, op <> pre_of d) -> opens U (dma op c l).
Proof.
  intros HI e s a s1 E. destruct (dma_step op c l e s) as (rc & y & cb & E2). rewrite E2 in E. injection E as <- <-.
  eexists [_]. split; [reflexivity|]. intros d2 c2 n2 x2 cb2 rc2 [H|[]]. injection H as H _ _ _ _ _. now apply HI in H.
Qed.
Lemma opens_ext2 U j : opens U (ext2 j).
Proof. intros e s a s1 E. destruct (ext_step j e s) as (rc & y & E2). rewrite E2 in E. injection E as <- <-. opens_one. Qed.
Lemma opens_get U : opens U get. Proof. intros e s a s1 E. injection E as <- <-. opens_nil. Qed.
Lemma opens_set U f : opens U (set f). Proof. intros e s a s1 E. injection E as <- <-. opens_nil. Qed.
Lemma opens_pending U : opens U pending. Proof. intros e s a s1 E. injection E as <- <-. opens_nil. Qed.
Lemma opens_not_pending U : opens U not_pending. Proof. intros e s a s1 E. injection E as <- <-. opens_nil. Qed.
Lemma opens_send U k b : opens U (send k b).
Proof.
  intros e s a s1 E. unfold send in E. destruct (pend s) eqn:P; [injection E as <- <-; opens_nil|].
  destruct (e_send e (tr s)) as [rc tm]. destruct (is_ok rc); injection E as <- <-; opens_one.
Qed.
Lemma opens_recv U : opens U recv.
Proof.
  intros e s a s1 E. destruct (recv_cases _ _ _ _ E) as [(_ & _ & ->)|(P & y & Es & _)]; [opens_nil|].
  rewrite Es. opens_one.
Qed.
Lemma opens_wait U m n : opens U m -> opens U (wait m n).
Proof.
  intros H. induction n as [|n IH]; cbn [wait]; [apply opens_ret|].
  apply opens_bind; [exact H|]. intros r. destruct (r =? NOTREADY)%Z; [exact IH|apply opens_ret].
Qed.
Ltac opens_in := cbn [In addr size]; tauto.
Lemma opens_op U (n : N) c l : n mod 4294967296 = 1 \/ n mod 4294967296 = 3 -> opens U (dma (op_of n) c l).
Proof.
  intros H. apply opens_post. intros d. unfold op_of. cbv zeta. destruct H as [-> | ->]; cbn; destruct d; discriminate.
Qed.
Ltac opens_tac :=
  repeat first
    [ apply opens_ret | apply opens_ext2 | apply opens_get | apply opens_set | apply opens_pending | apply opens_not_pending
    | apply opens_send | apply opens_recv
    | apply opens_pre; opens_in
    | apply opens_post; intros []; discriminate
    | apply opens_bind; [|intros ?]
    | apply opens_wait
    | match goal with
      | |- opens _ (if ?b then _ else _) => destruct b
      | |- opens _ (match ?p with (_, _) => _ end) => destruct p
      | |- opens _ (match ?p with Some _ => _ | None => _ end) => destruct p
      | |- opens _ (early _ _) => unfold early
      | |- opens _ (ext _) => unfold ext
      | |- opens _ (acquire _ _ _ _ _) => unfold acquire
      | |- opens _ (post_if _ _ _ _) => unfold post_if
      | |- opens _ (post _ _ _) => unfold post
      | |- opens _ (close_a _) => unfold close_a
      | |- opens _ (close_b _) => unfold close_b
      | |- opens _ (close_c _) => unfold close_c
      | |- opens _ (async_pre _ _ _ _) => unfold async_pre
      | |- opens _ (response _) => unfold response
      | |- opens _ (open_all _) => cbn [open_all bufs_of]
      | |- opens _ (close_all _ _) => cbn [close_all closing_order bufs_of rev app]
      end ].
(** The same with a condition on the record, which the closing of the generic records
    goes by. *)
Definition opensI (I : words -> Prop) (U : list (dir * N * N)) {A} (m : M A) : Prop := forall e s a s1, I (un s) ->
  m e s = (a, s1) -> I (un s1) /\
  exists t, tr s1 = t ++ tr s /\ forall d c n x cb rc, In (Dma (pre_of d) c n x cb rc) t -> In (d, c, n) U.
Definition same {A} (m : M A) : Prop := forall e s a s1, m e s = (a, s1) -> un s1 = un s.
Lemma opensI_of I U {A} (m : M A) : opens U m -> same m -> opensI I U m.
Proof. intros H S e s a s1 HI E. split; [rewrite (S e s a s1 E); exact HI|]. exact (H e s a s1 E). Qed.
Lemma opensI_bind I U {A B} (m : M A) (f : A -> M B) : opensI I U m -> (forall a, opensI I U (f a)) -> opensI I U (bind m f).
Proof.
  intros Hm Hf e s b s2 HI E. unfold bind in E. destruct (m e s) as [a s1] eqn:E1.
  destruct (Hm e s a s1 HI E1) as (I1 & t1 & T1 & H1). destruct (Hf a e s1 b s2 I1 E) as (I2 & t2 & T2 & H2).
  split; [exact I2|]. exists (t2 ++ t1). split; [rewrite T2, T1; apply app_assoc|]. intros d c n x cb rc HH.
  apply in_app_or in HH as [HH|HH]; eauto.
Qed.
Lemma opensI_ret I U {A} (a : A) : opensI I U (ret a).
Proof. apply opensI_of; [apply opens_ret|]. intros e s b s1 E. now injection E as <- <-. Qed.
Lemma opensI_pre I U d c l : In (d, c, l) U -> opensI I U (dma (pre_of d) c l).
Proof.
  intros H. apply opensI_of; [now apply opens_pre|]. intros e s b s1 E.
  destruct (dma_step (pre_of d) c l e s) as (rc & y & cb & E2). rewrite E2 in E. now injection E as <- <-.
Qed.
Lemma opensI_send I U k b : opensI I U (send k b).
Proof.
  apply opensI_of; [apply opens_send|]. intros e s a s1 E. unfold send in E. destruct (pend s); [now injection E as <- <-|].
  destruct (e_send e (tr s)) as [rc tm]. destruct (is_ok rc); now injection E as <- <-.
Qed.
Lemma opensI_set (I : words -> Prop) U f : (forall u, I u -> I (f u)) -> opensI I U (set f).
Proof. intros H e s a s1 HI E. injection E as <- <-. split; [cbn [un]; auto|opens_nil]. Qed.
Lemma opens_start (I : words -> Prop) U {A} f (g : M A) : (forall u, I (f u)) -> opensI I U g -> opens U (set f;;; g).
Proof.
  intros H Hg e s a s1 E. unfold bind, set in E.
  destruct (Hg e (mkSt (pend s) (f (un s)) (tr s)) a s1 (H (un s)) E) as (_ & t & T & K). exists t. split; [exact T|exact K].
Qed.
Definition closing_code (n : N) : Prop := n mod 4294967296 = 1 \/ n mod 4294967296 = 3.
Definition Im (u : words) : Prop := 0 < w2 u -> closing_code (w3 u).
Definition Id (u : words) : Prop := 0 < w6 u -> closing_code (w7 u).
Definition Imd (u : words) : Prop := Im u /\ Id u.
Lemma code_closing d : closing_code (code d).
Proof. destruct d; [left|right]; reflexivity. Qed.
Lemma opensI_post (I : words -> Prop) U put c n o : (forall u, I u -> 0 < n u -> closing_code (o u)) -> (forall u, I u -> I (put 0 0 0 0 u)) ->
  opensI I U (async_post put c n o).
Proof.
  intros HO HP e s a s1 HI E. unfold async_post, bind, get in E.
  destruct (N.eqb_spec (n (un s)) 0) as [Z|Z]; [unfold ret in E; injection E as <- <-; split; [exact HI|opens_nil]|].
  destruct (dma_step (op_of (o (un s))) (c (un s)) (n (un s)) e s) as (rc & y & cb & E2). rewrite E2 in E.
  unfold set, ret in E. injection E as <- <-. cbn [un tr]. split; [auto|].
  eexists [_]. split; [reflexivity|]. intros d2 c2 n2 x2 cb2 rc2 [H|[]]. exfalso. injection H as H _ _ _ _ _.
  revert H. unfold op_of. cbv zeta. destruct (HO (un s) HI ltac:(lia)) as [-> | ->]; cbn; destruct d2; discriminate.
Qed.
Lemma opensI_pre_m (I : words -> Prop) U put c l d : (l =? 0 = false -> In (d, c, l) U) ->
  (forall u, I u -> I (put 0 0 0 0 u)) -> (forall u x, I u -> I (put x c l (code d) u)) -> opensI I U (async_pre put c l d).
Proof.
  intros H P1 P2. unfold async_pre. apply opensI_bind; [now apply opensI_set|intros _].
  destruct (l =? 0) eqn:L; [apply opensI_ret|]. apply opensI_bind; [now apply opensI_pre, H|]. intros [r x].
  destruct (is_ok r); [|apply opensI_ret]. apply opensI_bind; [apply opensI_set; auto|intros; apply opensI_ret].
Qed.
Lemma opens_buf U d c l told : (l =? 0 = false -> In (d, c, l) U) -> opens U (buf_request d c l told).
Proof.
  intros H. unfold buf_request, early.
  apply opens_bind; [apply opens_ext2|intros [? v1]]. cbn [fst snd]. destruct (v1 =? 0); [|apply opens_ret].
  apply opens_bind; [apply opens_pending|intros p]. destruct p; [apply opens_ret|].
  apply opens_bind; [apply opens_ext2|intros [? v2]]. cbn [fst snd]. destruct (v2 =? 0); [|apply opens_ret].
  assert (G : opensI Im U ('(r, x) <- async_pre put_m c l d;;
    r2 <- (if is_ok r then send KBuf [(d, x, told)] else ret r);;
    (if negb (is_ok r2) then post_m;;; ret tt else ret tt);;; ret r2)).
  { apply opensI_bind.
    - apply opensI_pre_m; [exact H| |]; intros u; unfold Im; cbn [put_m w2 w3]; [lia|intros; apply code_closing].
    - intros [r x]. apply opensI_bind; [destruct (is_ok r); [apply opensI_send|apply opensI_ret]|]. intros r2.
      apply opensI_bind; [|intros; apply opensI_ret]. destruct (negb (is_ok r2)); [|apply opensI_ret].
      apply opensI_bind; [|intros; apply opensI_ret]. apply opensI_post; [intros u HI; exact HI|].
      intros u _. unfold Im. cbn [put_m w2 w3]. lia. }
  intros e s a s1 E.
  assert (E0 : exists t, tr s1 = t ++ tr (mkSt (pend s) (put_m 0 0 0 0 (un s)) (tr s)) /\
     forall d c n x cb rc, In (Dma (pre_of d) c n x cb rc) t -> In (d, c, n) U).
  { eapply (G e (mkSt (pend s) (put_m 0 0 0 0 (un s)) (tr s)) a s1); [unfold Im; cbn [un put_m w2]; lia|].
    rewrite <- E. unfold async_pre, bind, set. cbn [un pend tr]. reflexivity. }
  exact E0.
Qed.
Lemma opens_nvm_add U m dt l : In (Rd, m, META) U -> (dt =? 0 = false -> In (Rd, dt, l) U) -> opens U (nvm_add_request m dt l).
Proof.
  intros HM HD. unfold nvm_add_request, early.
  apply opens_bind; [apply opens_ext2|intros [? v1]]. cbn [fst snd]. destruct (v1 =? 0); [|apply opens_ret].
  apply opens_bind; [apply opens_pending|intros p]. destruct p; [apply opens_ret|].
  apply (opens_start Imd); [intros u; unfold Imd, Im, Id; cbn [put_m put_d w2 w3 w6 w7]; lia|].
  assert (PM : forall u, Imd u -> Imd (put_m 0 0 0 0 u)) by (intros u [H1 H2]; split; unfold Im, Id in *; cbn [put_m w2 w3 w6 w7]; [lia|exact H2]).
  assert (PD : forall u, Imd u -> Imd (put_d 0 0 0 0 u)) by (intros u [H1 H2]; split; unfold Im, Id in *; cbn [put_d w2 w3 w6 w7]; [exact H1|lia]).
  apply opensI_bind.
  - apply opensI_pre_m; [auto|exact PM|]. intros u x [H1 H2]. split; unfold Im, Id in *; cbn [put_m w2 w3 w6 w7]; [intros; apply code_closing|exact H2].
  - intros [r1 ma]. apply opensI_bind.
    + destruct (is_ok r1); [|apply opensI_ret]. apply opensI_pre_m; [|exact PD|].
      * destruct (dt =? 0); [discriminate|auto].
      * intros u x [H1 H2]. split; unfold Im, Id in *; cbn [put_d w2 w3 w6 w7]; [exact H1|intros; apply code_closing].
    + intros [r2 da]. apply opensI_bind; [destruct (is_ok r2); [apply opensI_send|apply opensI_ret]|]. intros r3.
      apply opensI_bind; [|intros; apply opensI_ret]. destruct (negb (is_ok r3)); [|apply opensI_ret].
      apply opensI_bind; [apply opensI_post; [intros u [_ HI]; exact HI|exact PD]|intros _].
      apply opensI_bind; [apply opensI_post; [intros u [HI _]; exact HI|exact PM]|intros _]. apply opensI_ret.
Qed.
Lemma opens_some U (m : M Z) : opens U m -> opens U (to_some m).
Proof. intros H. apply opens_bind; [exact H|intros; apply opens_ret]. Qed.
Theorem about_ok c e s o s1 d a n x cb rc : answers c = None -> do_call c e s = (o, s1) ->
  since s s1 (Dma (pre_of d) a n x cb rc) -> In (d, a, n) (about c).
Proof.
  intros A E (t & T & HI). assert (H : opens (about c) (do_call c)).
  { destruct c; try discriminate A; cbn [do_call about];
      try (apply opens_some; first
        [ apply opens_buf; intros _; opens_in
        | apply opens_nvm_add; intros; opens_in
        | unfold rng_request, aes_request, gcm_request, cmac_request, sha_request, plain_request, cleanup; solve [opens_tac] ]).
    - apply opens_some. unfold nvm_read_request. destruct (data =? 0); apply opens_buf; [discriminate|intros _; opens_in].
    - destruct o0; unfold direct_call; cbn [bufs_of closing_order rev app open_all close_all];
        solve [opens_tac]. }
  destruct (H e s o s1 E) as (t2 & T2 & K). rewrite T in T2. apply app_inv_tail in T2. subst t2. eauto.
Qed.
