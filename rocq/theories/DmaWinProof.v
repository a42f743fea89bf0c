(** Symbolic execution of the handlers of DmaWinModel. *)
From Verif Require Import DmaWinModel DmaWinSpec.
Local Open Scope N_scope.

Definition wp {A} (m : M A) (e : env) (t : list ev) (Q : A -> list ev -> Prop) : Prop :=
  Q (fst (m e t)) (snd (m e t)).

Lemma wp_ret {A} (a : A) e t (Q : A -> list ev -> Prop) : Q a t -> wp (ret a) e t Q.
Proof. auto. Qed.
Lemma wp_bind {A B} (m : M A) (f : A -> M B) e t (Q : B -> list ev -> Prop) :
  wp m e t (fun a t1 => wp (f a) e t1 Q) -> wp (bind m f) e t Q.
Proof. unfold wp, bind. destruct (m e t) as [a t1]. auto. Qed.
Lemma wp_dma op c l e t (Q : Z * N -> list ev -> Prop) :
  (forall rc x cbrc, (e_allow e = None -> rc = cbrc) -> Q (rc, x) (Dma op c l x cbrc rc :: t)) ->
  op <> BadOper -> wp (dma op c l) e t Q.
Proof.
  intros H NB. unfold wp, dma, process_addr. cbn [d_cb d_allow].
  destruct (e_cb e) as [f|]; cbn [fst snd].
  - destruct (f t op c l) as [rc x]. cbn [fst snd]. destruct (is_ok rc) eqn:K; cbn [negb]; [|apply H; auto].
    apply Z.eqb_eq in K. subst rc.
    destruct (N.ltb_spec 0 l); cbn [fst snd]; apply H; auto.
    intros ->. unfold check_oper. destruct (N.eqb_spec l 0); [lia|]. destruct op; auto. congruence.
  - cbn [is_ok negb]. change (is_ok OK) with true. cbn [negb].
    destruct (N.ltb_spec 0 l); cbn [fst snd]; apply H; auto.
    intros ->. unfold check_oper. destruct (N.eqb_spec l 0); [lia|]. destruct op; auto. congruence.
Qed.
Lemma wp_use d x l e t (Q : unit -> list ev -> Prop) : Q tt (Use d x l :: t) -> wp (use d x l) e t Q.
Proof. auto. Qed.
Lemma wp_ext2 k e t (Q : Z * N -> list ev -> Prop) :
  (forall rc v, Q (rc, v) (Ext k rc v :: t)) -> wp (ext2 k) e t Q.
Proof. intros H. unfold wp, ext2. destruct (e_ext e t k) as [rc v]. cbn [fst snd]. apply H. Qed.
Lemma wp_ext k e t (Q : Z -> list ev -> Prop) :
  (forall rc v, Q rc (Ext k rc v :: t)) -> wp (ext k) e t Q.
Proof. intros H. apply wp_bind, wp_ext2. intros rc v. apply wp_ret. cbn [fst]. apply H. Qed.
Lemma is_ok_true r : is_ok r = true -> r = OK.
Proof. apply Z.eqb_eq. Qed.
Lemma N_eqb_null x : not_null x = false -> x = 0.
Proof. unfold not_null. destruct (N.eqb_spec x 0); cbn [negb]; congruence. Qed.
Lemma u32_le n : u32 n <= n.
Proof. unfold u32. lia. Qed.
Lemma u16_le n : u16 n <= n.
Proof. unfold u16. lia. Qed.

Lemma serve_wp e r (P : Z -> list ev -> Prop) :
  wp (handler r) e [] (fun rc t => P rc (rev t)) -> forall rc t, serve e r = (rc, t) -> P rc t.
Proof.
  unfold wp, serve. destruct (handler r e []) as [rc t]. cbn [fst snd]. intros H rc' t' E.
  injection E as <- <-. exact H.
Qed.

(** One step of the execution. *)
Ltac norm := repeat (match goal with
  | |- context [is_ok OK] => change (is_ok OK) with true
  | |- context [not_null 0] => change (not_null 0) with false
  | |- context [is_ok BADARGS] => change (is_ok BADARGS) with false
  | |- context [is_ok ABORTED] => change (is_ok ABORTED) with false
  | |- context [is_ok ACCESS] => change (is_ok ACCESS) with false
  | |- context [is_ok BUFFER_SIZE] => change (is_ok BUFFER_SIZE) with false
  | K : is_ok ?r = false |- context [is_ok ?r] => rewrite K
  end; cbn [andb negb]).
Ltac step := norm;
  lazymatch goal with
  | |- wp (dma (pre_op ?d) _ _) _ _ _ => destruct d; cbn [pre_op post_op]
  | |- wp (if ?c then _ else _) _ _ _ => 
     lazymatch c with
     | context [is_ok (if ?b then _ else _)] => let K := fresh "K" in destruct b eqn:K
     | negb (is_ok ?r) => let K := fresh "K" in destruct (is_ok r) eqn:K; cbn [negb]; [apply is_ok_true in K; subst r|]
     | (is_ok ?r) && _ => let K := fresh "K" in destruct (is_ok r) eqn:K; cbn [andb]; [apply is_ok_true in K; subst r|]
     | negb (is_ok ?r) || _ => let K := fresh "K" in destruct (is_ok r) eqn:K; cbn [orb negb]; [apply is_ok_true in K; subst r|]
     | is_ok ?r => let K := fresh "K" in destruct (is_ok r) eqn:K; [apply is_ok_true in K; subst r|]
     | true => cbv iota
     | false => cbv iota
     | ?b => let K := fresh "K" in destruct b eqn:K
     end
  | |- wp (bind _ _) _ _ _ => apply wp_bind
  | |- wp (ret _) _ _ _ => apply wp_ret
  | |- wp (dma _ _ _) _ _ _ => apply wp_dma; [intros ? ? ? ?|discriminate]
  | |- wp (use _ _ _) _ _ _ => apply wp_use
  | |- wp (ext2 _) _ _ _ => apply wp_ext2; intros ? ?
  | |- wp (ext _) _ _ _ => apply wp_ext; intros ? ?
  | |- wp (post _ _ _) _ _ _ => unfold post
  | |- wp (post_if _ _ _ _) _ _ _ => unfold post_if
  | |- wp (pre_if _ _ _ _) _ _ _ => unfold pre_if
  | |- wp (ok_then _ _) _ _ _ => unfold ok_then
  | |- wp (let '(_, _) := ?p in _) _ _ _ => destruct p
  | |- wp (match ?d with Rd => _ | Wr => _ end) _ _ _ => destruct d
  end; cbn [fst snd addr size negb andb].
Ltac run := repeat step.

(** ** Counting in a list of known shape *)
Ltac facts := unfold some_bytes, not_null in *.
Ltac oks := repeat match goal with
  | K : is_ok ?r = false |- context [is_ok ?r] => rewrite K
  | |- context [is_ok OK] => change (is_ok OK) with true
  end.
Ltac bools := repeat match goal with
  | |- context [?a =? ?b] => let B := fresh "B" in destruct (N.eqb_spec a b) as [B|B]
  end.
Ltac cnt :=
  unfold opened, closed, count;
  cbn [firstn filter opening closing andb]; oks;
  rewrite ?N.eqb_refl; cbn [andb]; rewrite ?andb_true_r, ?andb_false_r;
  bools; cbn [andb length]; try lia; try congruence.

(** The part of each theorem for one way through a handler. *)
Ltac find_in := cbn [firstn In pre_op]; repeat first [left; reflexivity | right].
Ltac size_le := repeat match goal with H : _ -> _ |- _ => clear H end; pose proof u32_le; 
  first [lia | match goal with |- context [u32 ?n] => pose proof (u32_le n); lia end
        | match goal with |- context [if ?b then _ else _] => destruct b eqn:?; lia end ].
Ltac size_no := repeat match goal with H : _ -> _ |- _ => clear H end; 
  first [match goal with H : 0 < u32 ?n |- _ => pose proof (u32_le n); lia end].
Ltac use_leaf :=
  cbn [rev app]; let n := fresh "n" in let HN := fresh "HN" in
  intros n ? ? ? HN ?;
  repeat (destruct n as [|n];
    [cbn [nth_error] in HN; first [discriminate HN | injection HN; intros; subst; clear HN] |cbn [nth_error] in HN; try discriminate HN]);
  facts;
  first [
    solve [do 3 eexists; split; [solve [find_in]|split; [first [apply N.le_refl|apply u32_le|apply u16_le|size_le]|cnt]]]
  | exfalso; size_no ].

Ltac unfold_handler :=
  match goal with
  | |- wp (?f _) _ _ _ => unfold f
  | |- wp (?f _ _) _ _ _ => unfold f
  | |- wp (?f _ _ _) _ _ _ => unfold f
  end.

Lemma use_ok e r : own_copy r = false -> wp (handler r) e [] (fun _ t => used_open (rev t)).
Proof.
  intros NC. destruct r; cbn [handler]; unfold_handler; run.
  all: try solve [use_leaf].
  all: cbn [own_copy] in NC; try discriminate NC.
Qed.

(** ** Windows closed and not closed *)
Fixpoint chk (d : dir) (a : N) (k : nat) (t : list ev) : Prop :=
  match t with
  | [] => True
  | x :: r => if opening d a x then chk d a (S k) r
              else if closing d a x then match k with O => False | S k' => chk d a k' r end
              else chk d a k r
  end.
Lemma not_both d a x : opening d a x = true -> closing d a x = false.
Proof. destruct d, x as [[] | |]; cbn; congruence. Qed.
Lemma chk_ok d a t : forall k, chk d a k t ->
  forall n, (closed d a (firstn n t) <= k + opened d a (firstn n t))%nat.
Proof.
  unfold opened, closed, count. induction t as [|x t IH]; intros k H [|n]; cbn [firstn filter length]; try lia.
  cbn [chk] in H. destruct (opening d a x) eqn:O; cbn [length].
  - rewrite (not_both _ _ _ O). specialize (IH (S k) H n). lia.
  - destruct (closing d a x); cbn [length].
    + destruct k as [|k]; [tauto|]. specialize (IH k H n). lia.
    + apply IH, H.
Qed.
Lemma extra_ok t : (forall d a, chk d a 0 t) -> none_extra t.
Proof. intros H d a n. exact (chk_ok d a t 0 (H d a) n). Qed.

Ltac extra_leaf :=
  apply extra_ok; intros [] ?; cbn [rev app chk opening closing andb]; oks; rewrite ?andb_true_r, ?andb_false_r;
  bools; cbn [andb]; exact I.
Ltac left_leaf := intros ?; cbn [rev app]; cnt.

(** What a hypothesis about the whole list says of its members. *)
Ltac is_in := cbn [rev app In pre_op]; repeat first [left; reflexivity | right].
Ltac null_no := match goal with
  | N : never_null _, K : not_null ?x = false |- _ =>
      exfalso; apply N_eqb_null in K;
      first [refine (N Rd _ _ x _ _ K); solve [is_in] | refine (N Wr _ _ x _ _ K); solve [is_in]]
  end.
Ltac refused_no := match goal with
  | N : never_refused _, K : is_ok ?r = false |- _ =>
      exfalso; let E := fresh in
      assert (E : r = OK) by (first [refine (N Rd _ _ _ _ r _); solve [is_in] | refine (N Wr _ _ _ _ r _); solve [is_in]]);
      rewrite E in K; discriminate K
  end.
Ltac all_ways r := destruct r; cbn [handler]; unfold_handler; run.

Lemma exact_ok e r : paired r = true -> wp (handler r) e [] (fun _ t => balanced (rev t)).
Proof.
  intros C. all_ways r.
  all: try discriminate C.
  all: split; [solve [left_leaf]|split; [solve [left_leaf]|solve [extra_leaf]]].
Qed.

Lemma success_ok e r : wp (handler r) e [] (fun rc t => rc = OK -> never_null (rev t) -> balanced (rev t)).
Proof.
  all_ways r; intros R N.
  all: try (subst; discriminate).
  all: try solve [null_no].
  all: split; [solve [left_leaf]|split; [solve [left_leaf]|solve [extra_leaf]]].
Qed.

Lemma left_ok e r : closes_all r = true ->
  wp (handler r) e [] (fun _ t => none_left Rd (rev t) /\ none_left Wr (rev t)).
Proof.
  intros C. all_ways r.
  all: try discriminate C.
  all: split; solve [left_leaf].
Qed.

Ltac mapped_leaf := intros ?; cbn [rev app]; unfold closed, count, opening_mapped;
  cbn [filter opening closing andb]; oks; cbn [andb]; rewrite ?andb_true_r, ?andb_false_r;
  repeat match goal with K : not_null ?x = _ |- context [not_null ?x] => rewrite K end;
  rewrite ?andb_true_r, ?andb_false_r; bools; cbn [andb length]; try lia;
  repeat match goal with |- context [not_null ?x] => destruct (not_null x) end; cbn [length]; try lia; try congruence.
Lemma left_mapped_ok e r : closes_mapped r = true ->
  wp (handler r) e [] (fun _ t => none_left_mapped Rd (rev t) /\ none_left_mapped Wr (rev t)).
Proof.
  intros C. all_ways r.
  all: try discriminate C.
  all: split; solve [mapped_leaf].
Qed.

Lemma left_read_ok e r :
  wp (handler r) e [] (fun _ t => copies r = false -> none_left_mapped Rd (rev t)).
Proof.
  all_ways r; intros C.
  all: try discriminate C.
  all: solve [mapped_leaf].
Qed.

Lemma extra_always_ok e r : closes_opened r = true -> wp (handler r) e [] (fun _ t => none_extra (rev t)).
Proof.
  intros C. all_ways r.
  all: try discriminate C.
  all: solve [extra_leaf].
Qed.

Lemma extra_granted_ok e r : blind r = false ->
  wp (handler r) e [] (fun _ t => never_refused (rev t) -> none_extra (rev t)).
Proof.
  intros C. all_ways r; intros N.
  all: try discriminate C.
  all: try solve [refused_no].
  all: solve [extra_leaf].
Qed.

Lemma callback_ok e r : e_allow e = None -> paired r = true ->
  wp (handler r) e [] (fun _ t => callback_done (rev t)).
Proof.
  intros A C. all_ways r.
  all: try discriminate C.
  all: intros [] ?; unfold closed, count; cbn [rev app filter agreed closing andb];
       repeat match goal with H : _ -> _ = _ |- _ => specialize (H A); subst end; oks;
       rewrite ?andb_true_r, ?andb_false_r; bools; cbn [length]; lia.
Qed.
