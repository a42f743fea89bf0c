(* C64: a CMAC obtained through the server is the CMAC of the message. *)
From Coq Require Import Arith NArith List Bool Lia.
From Verif Require Import KdfModel PropertiesKdf AesModel AesSpec AesProof CmacSpec CmacModel CmacProof.
Import ListNotations.

Section C64.

Variable E : list byte -> list byte -> list byte.
Variable K1 K2 : list byte -> list byte.
Variable DL : nat.

Definition is_block : Prop := forall k b, length b = 16 -> length (E k b) = 16.

(* --- what a history of calls means.  [P] is what the stream was given so far. --- *)

Definition mac (k msg : list byte) : list byte := CMAC (E k) (K1 k) (K2 k) msg.

Fixpoint meant (k P : list byte) (l : list (call * (list byte * outcome))) : Prop :=
  match l with
  | [] => True
  | (Upd _ _ inp, (t, Done)) :: r => t = [] /\ meant k (P ++ inp) r
  | (Fin _ n, (t, Done)) :: r => t = firstn n (mac k P) /\ meant k [] r
  | (Gen _ _ inp q n, (t, Done)) :: r => t = firstn n (firstn q (mac k inp)) /\ meant k [] r
  | (_, (t, _)) :: r => t = [] /\ meant k P r
  end.

(* The keys in play are k: the one kept in the object, those given with calls,
   and the stored one of the object's id. *)
Definition given_or (k key : list byte) : Prop := key = [] \/ key = k.
Definition stored_is (k : list byte) (id : N) (w : mac_world) : Prop :=
  forall u k', m_key w u id = Key k' -> k' = k.
Definition call_key (x : call) : list byte :=
  match x with Upd _ key _ => key | Fin _ _ => [] | Gen _ key _ _ _ => key end.
Definition call_in (x : call) : list byte :=
  match x with Upd _ _ inp => inp | Fin _ _ => [] | Gen _ _ inp _ _ => inp end.
(* The caller's MAC buffer has a length a tag may have, or none. *)
Definition tag_len (n : nat) : Prop := n = 0 \/ 4 <= n <= 16.
Definition call_tag (x : call) : Prop :=
  match x with Upd _ _ _ => True | Fin _ n => tag_len n | Gen _ _ _ q n => tag_len n end.

Lemma tag_ok_len : forall n, tag_ok n = true <-> tag_len n.
Proof.
  intros n. unfold tag_ok, tag_len, TAG_MIN, TAG_MAX.
  rewrite orb_true_iff, andb_true_iff, Nat.eqb_eq, !Nat.leb_le. tauto.
Qed.

(* --- one request --- *)

Lemma mac_got_rd : forall w req a b c o n, o = HDR + req + length a -> n = length b ->
  rd o n (mac_got w req (a ++ b ++ c)) = b.
Proof.
  intros w req a b c o n -> ->. unfold mac_got.
  pose proof (got_rd (mkWorld (fun _ _ => None) true true true (m_old w) true true true true)
                req a b c (HDR + req + length a) (length b) eq_refl eq_refl) as G.
  exact G.
Qed.

Lemma mac_got_long : forall w req p, HDR + req <= length (mac_got w req p).
Proof.
  intros w req p. unfold mac_got, arrived. rewrite app_length, repeat_length. lia.
Qed.

Lemma exchange_eq : forall dma w c ki inp s n, length ki <= 32 ->
  exchange E K1 K2 dma w c ki inp s n =
  if m_back w && (negb dma || (length inp =? 0) || m_in w) then
    match mac_key w ki (c_id c) with
    | Some k => mac_work E K1 K2 w k s inp n
    | None => None
    end
  else None.
Proof.
  intros dma w c ki inp s n L. unfold exchange. destruct dma.
  - unfold mac_serve_dma.
    rewrite (proj2 (Nat.ltb_ge _ MAC_DREQ)) by lia.
    rewrite (proj2 (Nat.ltb_ge _ (length ki))) by lia.
    rewrite (proj2 (Nat.ltb_ge AES_MAX _)) by (unfold AES_MAX; lia).
    replace (rd (HDR + MAC_DREQ) (length ki) (mac_got w MAC_DREQ ki)) with ki.
    2:{ symmetry. pose proof (mac_got_rd w MAC_DREQ [] ki [] (HDR + MAC_DREQ) (length ki)) as G.
        rewrite app_nil_r in G. apply G; [cbn [length]; lia|reflexivity]. }
    cbn [negb orb].
    destruct (mac_key w ki (c_id c)) as [k|].
    + destruct (length inp =? 0), (m_in w), (m_back w); cbn [negb andb orb]; try reflexivity;
        destruct (mac_work E K1 K2 w k s inp n) as [[s' t]|]; try reflexivity;
        rewrite rd_same; try reflexivity;
        pose proof (mac_got_long w MAC_DREQ ki); unfold MAC_DREQ, MAC_DRESP in *; lia.
    + destruct (length inp =? 0), (m_in w), (m_back w); reflexivity.
  - unfold mac_serve.
    rewrite (proj2 (Nat.ltb_ge _ MAC_REQ)) by lia.
    rewrite (proj2 (Nat.ltb_ge _ (length inp))) by lia.
    rewrite (proj2 (Nat.ltb_ge _ (length ki))) by lia.
    rewrite (proj2 (Nat.ltb_ge AES_MAX _)) by (unfold AES_MAX; lia).
    replace (rd (HDR + MAC_REQ + length inp) (length ki) (mac_got w MAC_REQ (inp ++ ki))) with ki.
    2:{ symmetry. pose proof (mac_got_rd w MAC_REQ inp ki [] (HDR + MAC_REQ + length inp) (length ki)) as G.
        rewrite app_nil_r in G. apply G; reflexivity. }
    replace (rd (HDR + MAC_REQ) (length inp) (mac_got w MAC_REQ (inp ++ ki))) with inp.
    2:{ symmetry. apply (mac_got_rd w MAC_REQ [] inp ki); [cbn [length]; lia|reflexivity]. }
    cbn [negb orb]. rewrite andb_true_r.
    destruct (mac_key w ki (c_id c)) as [k|].
    + destruct (m_back w); cbn [negb];
        destruct (mac_work E K1 K2 w k s inp n) as [[s' t]|]; try reflexivity;
        rewrite rd_same; try reflexivity;
        pose proof (mac_got_long w MAC_REQ (inp ++ ki)); unfold MAC_REQ, MAC_RESP in *; lia.
    + destruct (m_back w); reflexivity.
Qed.

Lemma the_key : forall w c key k k', given_or k key -> given_or k (c_key c) ->
  stored_is k (c_id c) w -> mac_key w (client_key c key) (c_id c) = Some k' -> k' = k.
Proof.
  intros w c key k k' G1 G2 S Q.
  assert (G : given_or k (client_key c key)).
  { unfold client_key. destruct ((length key =? 0) && (c_id c =? 0)%N); assumption. }
  unfold mac_key in Q. destruct (length (client_key c key) =? 0) eqn:Z; cbn [negb] in Q.
  - destruct (c_id c =? 0)%N; cbn [negb] in Q; [discriminate|].
    destruct (m_key w false (c_id c)) as [x| |] eqn:R.
    + destruct (key_ok x); [|discriminate]. injection Q as <-. apply (S _ _ R).
    + destruct (m_key w true (c_id c)) as [x| |] eqn:R2; try discriminate.
      destruct (key_ok x); [|discriminate]. injection Q as <-. apply (S _ _ R2).
    + discriminate.
  - injection Q as <-. destruct G as [G|G]; [|exact G].
    rewrite G in Z. discriminate Z.
Qed.

Lemma keep_key_st : forall c key, c_st (keep_key c key) = c_st c /\ c_id (keep_key c key) = c_id c.
Proof. intros c key. unfold keep_key. destruct (_ && _); split; reflexivity. Qed.

Lemma keep_key_given : forall c key k, given_or k key -> given_or k (c_key c) ->
  given_or k (c_key (keep_key c key)).
Proof. intros c key k A B. unfold keep_key. destruct (_ && _); assumption. Qed.

(* What each of the three calls does to a stream that was given [P]. *)

Definition same_keys (k : list byte) (c c' : cmac_obj) : Prop :=
  c_id c' = c_id c /\ given_or k (c_key c').

Lemma upd_ok : forall dma w c key inp k P, is_block ->
  given_or k key -> given_or k (c_key c) -> stored_is k (c_id c) w ->
  holds E k P (c_st c) -> (N.of_nat (length P + length inp) < 4294967296)%N ->
  let '(c', o) := upd_call E K1 K2 DL dma w c key inp in
  same_keys k c c' /\
  ((o = Done /\ holds E k (P ++ inp) (c_st c')) \/ (o = Err /\ c_st c' = c_st c)).
Proof.
  intros dma w c key inp k P HB G1 G2 S H T.
  assert (SK : same_keys k c c) by (split; [reflexivity|exact G2]).
  unfold upd_call.
  destruct (AES_MAX <? length (client_key c key)) eqn:L; [split; [exact SK|right; auto]|].
  apply Nat.ltb_ge in L. unfold AES_MAX in L.
  destruct ((length inp =? 0) && (length (client_key c key) =? 0)) eqn:Z.
  { split; [exact SK|left; split; [reflexivity|]]. apply andb_true_iff in Z. destruct Z as [Z _].
    apply Nat.eqb_eq, length_zero_iff_nil in Z. subst inp. rewrite app_nil_r. exact H. }
  destruct (no_room DL dma (client_key c key) inp); [split; [exact SK|right; auto]|].
  destruct (m_sent w); cbn [negb]; [|split; [exact SK|right; auto]].
  destruct (keep_key_st c key) as [KS KI].
  assert (SK1 : same_keys k c (keep_key c key)) by (split; [exact KI|apply keep_key_given; assumption]).
  rewrite exchange_eq by exact L.
  destruct (m_back w && _); [|split; [exact SK1|right; auto]].
  destruct (mac_key w (client_key c key) (c_id c)) as [k'|] eqn:MK; [|split; [exact SK1|right; auto]].
  apply (the_key w c key k k' G1 G2 S) in MK. subst k'.
  unfold mac_work.
  destruct (m_lib w); cbn [negb]; [|split; [exact SK1|right; auto]].
  destruct (key_ok k); cbn [negb]; [|split; [exact SK1|right; auto]].
  change (0 =? 0) with true. cbn [negb]. rewrite andb_false_r.
  rewrite (holds_small E k P) by exact H.
  assert (H' : holds E k (P ++ inp) (if length inp =? 0 then c_st c else update E k (c_st c) inp)).
  { destruct (length inp =? 0) eqn:ZI.
    - apply Nat.eqb_eq, length_zero_iff_nil in ZI. subst inp. rewrite app_nil_r. exact H.
    - apply holds_update; try assumption. intros ->. discriminate ZI. }
  unfold restore. rewrite (holds_small E k _ _ H').
  split; [|left; split; [reflexivity|exact H']].
  split; [exact KI|apply SK1].
Qed.

Lemma fin_ok : forall dma w c n k P, is_block ->
  given_or k (c_key c) -> stored_is k (c_id c) w -> holds E k P (c_st c) -> tag_len n ->
  let '(c', t, o) := fin_call E K1 K2 DL dma w c n in
  same_keys k c c' /\
  ((o = Done /\ t = firstn n (mac k P) /\ holds E k [] (c_st c')) \/
   (o = Err /\ t = [] /\ c' = c)).
Proof.
  intros dma w c n k P HB G2 S H T.
  assert (SK : same_keys k c c) by (split; [reflexivity|exact G2]).
  unfold fin_call.
  destruct (AES_MAX <? length (client_key c [])) eqn:L; [split; [exact SK|right; auto]|].
  apply Nat.ltb_ge in L. unfold AES_MAX in L.
  destruct (no_room DL dma (client_key c []) []); [split; [exact SK|right; auto]|].
  destruct (m_sent w); cbn [negb]; [|split; [exact SK|right; auto]].
  rewrite exchange_eq by exact L. unfold mac_end.
  destruct (m_back w && _); [|split; [exact SK|right; auto]].
  destruct (mac_key w (client_key c []) (c_id c)) as [k'|] eqn:MK; [|split; [exact SK|right; auto]].
  assert (G1 : given_or k []) by (left; reflexivity).
  apply (the_key w c [] k k' G1 G2 S) in MK. subst k'.
  unfold mac_work.
  destruct (m_lib w); cbn [negb]; [|split; [exact SK|right; auto]].
  destruct (key_ok k); cbn [negb]; [|split; [exact SK|right; auto]].
  cbn [length]. change (0 =? 0) with true. change (16 =? 0) with false. cbn [negb andb].
  rewrite (holds_small E k P) by exact H.
  rewrite (final_ok E K1 K2 k P) by (try exact H; unfold TAG_MIN, TAG_MAX; lia).
  unfold restore. cbn [st_zero st_n]. change (BLOCK <? 0) with false.
  rewrite (proj2 (tag_ok_len n) T).
  split; [split; [reflexivity|exact G2]|]. left. split; [reflexivity|].
  split; [|apply holds_zero].
  rewrite firstn_firstn. f_equal. unfold tag_len in T. lia.
Qed.

Lemma gen_ok : forall dma w c key inp q n k P, is_block ->
  given_or k key -> given_or k (c_key c) -> stored_is k (c_id c) w ->
  holds E k P (c_st c) -> tag_len n -> (N.of_nat (length inp) < 4294967296)%N ->
  let '(c', t, o) := gen_call E K1 K2 DL dma w c key inp q n in
  same_keys k c c' /\
  ((o = Done /\ t = firstn n (firstn q (mac k inp)) /\ holds E k [] (c_st c')) \/
   (o = Err /\ t = [] /\ c_st c' = c_st c)).
Proof.
  intros dma w c key inp q n k P HB G1 G2 S H T LI.
  assert (SK : same_keys k c c) by (split; [reflexivity|exact G2]).
  unfold gen_call.
  destruct ((length inp =? 0) || (q =? 0)) eqn:Z; [split; [exact SK|right; auto]|].
  apply orb_false_iff in Z. destruct Z as [Z1 Z2].
  assert (NE : inp <> []) by (intros ->; discriminate Z1). apply Nat.eqb_neq in Z2.
  destruct (tag_ok q) eqn:TQ; cbn [negb]; [|split; [exact SK|right; auto]].
  apply tag_ok_len in TQ.
  destruct (AES_MAX <? length (client_key c key)) eqn:L; [split; [exact SK|right; auto]|].
  apply Nat.ltb_ge in L. unfold AES_MAX in L.
  destruct (negb dma && (MAX_GEN DL <? length inp)); [split; [exact SK|right; auto]|].
  destruct (no_room DL dma (client_key c key) inp); [split; [exact SK|right; auto]|].
  destruct (m_sent w); cbn [negb]; [|split; [exact SK|right; auto]].
  destruct (keep_key_st c key) as [KS KI].
  assert (SK1 : same_keys k c (keep_key c key)) by (split; [exact KI|apply keep_key_given; assumption]).
  rewrite exchange_eq by exact L. unfold mac_end.
  destruct (m_back w && _); [|split; [exact SK1|right; auto]].
  destruct (mac_key w (client_key c key) (c_id c)) as [k'|] eqn:MK; [|split; [exact SK1|right; auto]].
  apply (the_key w c key k k' G1 G2 S) in MK. subst k'.
  unfold mac_work.
  destruct (m_lib w); cbn [negb]; [|split; [exact SK1|right; auto]].
  destruct (key_ok k); cbn [negb]; [|split; [exact SK1|right; auto]].
  rewrite Z1, (proj2 (Nat.eqb_neq q 0) Z2). cbn [negb andb].
  rewrite (generate_ok E K1 K2 HB) by (try assumption; unfold tag_len, TAG_MIN, TAG_MAX in *; lia).
  unfold restore. cbn [st_zero st_n]. change (BLOCK <? 0) with false.
  rewrite (proj2 (tag_ok_len n) T).
  split; [split; [exact KI|apply SK1]|]. left. split; [reflexivity|].
  split; [reflexivity|apply holds_zero].
Qed.

(* --- the stream theorem --- *)

Definition call_ok (k : list byte) (id : N) (wx : mac_world * call) : Prop :=
  stored_is k id (fst wx) /\ given_or k (call_key (snd wx)) /\ call_tag (snd wx).

Definition total (l : list (mac_world * call)) : nat :=
  fold_right (fun wx n => length (call_in (snd wx)) + n) 0 l.

Lemma stream_from : forall k l c P, is_block ->
  given_or k (c_key c) -> holds E k P (c_st c) -> Forall (call_ok k (c_id c)) l ->
  (N.of_nat (length P + total l) < 4294967296)%N ->
  meant k P (mac_run E K1 K2 DL c l).
Proof.
  intros k l. induction l as [|[w x] l IH]; intros c P HB GK H OK T; [exact I|].
  inversion OK as [|? ? O R]; subst. destruct O as (OS & OG & OT). cbn [fst snd] in *.
  cbn [total fold_right snd] in T. fold (total l) in T.
  cbn [mac_run]. destruct x as [dma key inp|dma n|dma key inp q n]; cbn [mac_step call_in call_key call_tag] in *.
  - pose proof (upd_ok dma w c key inp k P HB OG GK OS H) as U.
    destruct (upd_call E K1 K2 DL dma w c key inp) as [c' o].
    destruct U as [[SI SG] [[-> H']|[-> H']]]; [lia| |].
    + cbn [meant]. split; [reflexivity|]. apply IH; try assumption.
      * rewrite SI. exact R.
      * rewrite app_length. lia.
    + cbn [meant]. split; [reflexivity|]. apply IH; try assumption.
      * rewrite H'. exact H.
      * rewrite SI. exact R.
      * lia.
  - pose proof (fin_ok dma w c n k P HB GK OS H OT) as U.
    destruct (fin_call E K1 K2 DL dma w c n) as [[c' t] o].
    destruct U as [[SI SG] [(-> & -> & H')|(-> & -> & ->)]]; cbn [meant].
    + split; [reflexivity|]. apply IH; try assumption.
      * rewrite SI. exact R.
      * cbn [length]. lia.
    + split; [reflexivity|]. apply IH; try assumption.
  - assert (LI : (N.of_nat (length inp) < 4294967296)%N) by lia.
    pose proof (gen_ok dma w c key inp q n k P HB OG GK OS H OT LI) as U.
    destruct (gen_call E K1 K2 DL dma w c key inp q n) as [[c' t] o].
    destruct U as [[SI SG] [(-> & -> & H')|(-> & -> & H')]]; cbn [meant].
    + split; [reflexivity|]. apply IH; try assumption.
      * rewrite SI. exact R.
      * cbn [length]. lia.
    + split; [reflexivity|]. apply IH; try assumption.
      * rewrite H'. exact H.
      * rewrite SI. exact R.
      * lia.
Qed.

(* Any history of requests on one object, cut as it may be, by either path and
   with any failures: every MAC returned is the CMAC of what the successful
   updates since the last MAC were given, or of the one message.  Part: tag
   lengths are 0 or 4 to 16 (see the refutation below), all input together is
   below 4 GiB. *)
Theorem C64_stream_partial : forall k c l, is_block ->
  given_or k (c_key c) -> c_st c = st_zero -> Forall (call_ok k (c_id c)) l ->
  (N.of_nat (total l) < 4294967296)%N ->
  meant k [] (mac_run E K1 K2 DL c l).
Proof.
  intros k c l HB GK Z OK T. apply stream_from; try assumption.
  rewrite Z. apply holds_zero.
Qed.

(* --- the blocking functions --- *)

Inductive bmeant (k : list byte) :
  list byte -> list ((list byte * list byte * option nat) * (list byte * outcome)) -> Prop :=
| BM_end : forall P, bmeant k P []
| BM_in : forall P key inp r, bmeant k (P ++ inp) r ->
    bmeant k P (((key, inp, None), ([], Done)) :: r)
| BM_mac : forall P key inp n r, (key = [] \/ inp = [] \/ n = 0) ->
    bmeant k [] r ->
    bmeant k P (((key, inp, Some n), (firstn n (mac k (P ++ inp)), Done)) :: r)
| BM_one : forall P key inp n r, key <> [] -> inp <> [] -> n <> 0 -> bmeant k [] r ->
    bmeant k P (((key, inp, Some n), (firstn n (mac k inp), Done)) :: r)
| BM_err : forall P key inp out r o, o <> Done -> bmeant k P r ->
    bmeant k P (((key, inp, out), ([], o)) :: r)
(* A call with input and output that fails may have taken the input. *)
| BM_err_taken : forall P key inp n r o, o <> Done -> inp <> [] -> bmeant k (P ++ inp) r ->
    bmeant k P (((key, inp, Some n), ([], o)) :: r).

Definition bcall_ok (k : list byte) (id : N) (x : bcall) : Prop :=
  let '(w1, w2, dma, key, inp, out) := x in
  stored_is k id w1 /\ stored_is k id w2 /\ given_or k key /\
  (dma = false -> key <> [] -> inp <> [] -> out <> None ->
   length inp <= DL - 100 \/ DL - 68 < length inp + length key).

Definition btotal (l : list bcall) : nat :=
  fold_right (fun x n => let '(_, _, _, _, inp, _) := x in length inp + n) 0 l.

Lemma bstream_from : forall k l c P, is_block ->
  given_or k (c_key c) -> holds E k P (c_st c) -> Forall (bcall_ok k (c_id c)) l ->
  (N.of_nat (length P + btotal l) < 4294967296)%N ->
  bmeant k P (mac_brun E K1 K2 DL c l).
Proof.
  intros k l. induction l as [|x l IH]; intros c P HB GK H OK T; [constructor|].
  inversion OK as [|? ? O R]; subst.
  destruct x as [[[[[w1 w2] dma] key] inp] out].
  destruct O as (S1 & S2 & OG & WIN).
  cbn [btotal fold_right] in T. fold (btotal l) in T.
  cbn [mac_brun]. unfold mac_call.
  set (wants := match out with None => false | Some _ => true end).
  set (len := match out with None => 0 | Some n => n end).
  destruct ((length inp =? 0) && (length key =? 0) && negb wants) eqn:NOP.
  { apply andb_true_iff in NOP. destruct NOP as [NOP W]. apply andb_true_iff in NOP.
    destruct NOP as [Z _]. apply Nat.eqb_eq, length_zero_iff_nil in Z. subst inp.
    destruct out; [discriminate W|]. apply BM_in. rewrite app_nil_r. apply IH; try assumption.
    }
  destruct (tag_ok len) eqn:TO; cbn [negb].
  2:{ apply BM_err; [discriminate|]. apply IH; try assumption. lia. }
  pose proof (proj1 (tag_ok_len len) TO) as TL.
  match goal with |- context [if ?c then gen_call _ _ _ _ _ _ _ _ _ _ _ else _] => destruct c eqn:ONE end.
  - repeat rewrite andb_true_iff in ONE. destruct ONE as ((((I1 & W) & L0) & FT) & FR).
    apply negb_true_iff in I1. apply negb_true_iff, Nat.eqb_neq in L0.
    assert (NE : inp <> []) by (intros ->; discriminate I1).
    destruct out as [n|]; [|discriminate W]. cbn [len] in *. clear W NOP.
    assert (LI : (N.of_nat (length inp) < 4294967296)%N) by lia.
    pose proof (gen_ok dma w1 c key inp len len k P HB OG GK S1 H TL LI) as U.
    subst len.
    destruct (gen_call E K1 K2 DL dma w1 c key inp n n) as [[c' t] o].
    destruct U as [[SI SG] [(-> & -> & H')|(-> & -> & H')]].
    + rewrite firstn_firstn, Nat.min_id.
      assert (RR : bmeant k [] (mac_brun E K1 K2 DL c' l)).
      { apply IH; try assumption; [rewrite SI; exact R|cbn [length]; lia]. }
      destruct key as [|y key].
      * cbn [length] in FR. change (0 =? 0) with true in FR. cbn [negb orb] in FR.
        apply (holds_fresh E k P _ H) in FR. subst P.
        apply BM_mac; [left; reflexivity|exact RR].
      * apply BM_one; try assumption. discriminate.
    + apply BM_err; [discriminate|]. apply IH; try assumption.
      * rewrite H'. exact H.
      * rewrite SI. exact R.
      * lia.
  - assert (UP : let '(c1, o) :=
        (if negb (length inp =? 0) then upd_call E K1 K2 DL dma w1 c key inp
         else if negb (length key =? 0) then upd_call E K1 K2 DL dma w1 c key [] else (c, Done)) in
        same_keys k c c1 /\
        ((o = Done /\ holds E k (P ++ inp) (c_st c1) /\
          (* a first request with a key of its own is no stream *)
          (wants = true -> len <> 0 -> inp <> [] -> key = [])) \/
         (o = Err /\ c_st c1 = c_st c))).
    { destruct (length inp =? 0) eqn:ZI; cbn [negb].
      - apply Nat.eqb_eq, length_zero_iff_nil in ZI. subst inp. rewrite app_nil_r.
        destruct (length key =? 0); cbn [negb].
        + split; [split; [reflexivity|exact GK]|]. left. split; [reflexivity|].
          split; [exact H|]. intros _ _ X. contradiction X. reflexivity.
        + pose proof (upd_ok dma w1 c key [] k P HB OG GK S1 H) as U.
          destruct (upd_call E K1 K2 DL dma w1 c key []) as [c1 o].
          rewrite app_nil_r in U.
          destruct U as [SK [[-> U]|[-> U]]]; [cbn [length] in *; lia| |].
          * split; [exact SK|]. left. split; [reflexivity|]. split; [exact U|].
            intros _ _ X. contradiction X. reflexivity.
          * split; [exact SK|]. right. auto.
      - assert (NE : inp <> []) by (intros ->; discriminate ZI).
        pose proof (upd_ok dma w1 c key inp k P HB OG GK S1 H) as U.
        destruct (upd_call E K1 K2 DL dma w1 c key inp) as [c1 o] eqn:UC.
        destruct U as [SK [[-> U]|[-> U]]]; [lia| |]; (split; [exact SK|]).
        + left. split; [reflexivity|]. split; [exact U|]. intros W L0 _.
          destruct key as [|y key]; [reflexivity|exfalso].
          rewrite W in ONE. apply Nat.eqb_neq in L0. rewrite L0 in ONE.
          cbn [length negb andb orb Nat.eqb] in ONE. rewrite andb_true_r in ONE.
          apply orb_false_iff in ONE. destruct ONE as [-> ONE]. apply Nat.leb_gt in ONE.
          unfold MAX_GEN, HDR, MAC_REQ in ONE.
          destruct out as [n|]; [|discriminate W].
          destruct (WIN eq_refl) as [X|X]; [discriminate|exact NE|discriminate|lia|].
          unfold upd_call in UC. cbn [client_key length Nat.eqb andb] in UC.
          unfold client_key in UC. cbn [length Nat.eqb andb] in UC.
          destruct (AES_MAX <? S (length key)); [discriminate UC|].
          rewrite ZI in UC. cbn [andb] in UC.
          unfold no_room, HDR, MAC_REQ in UC.
          destruct ((DL - (12 + 56) <? length inp) || (DL - (12 + 56) - length inp <? length (y :: key))) eqn:NR;
            [discriminate UC|].
          apply orb_false_iff in NR. destruct NR as [NR1 NR2].
          apply Nat.ltb_ge in NR1. apply Nat.ltb_ge in NR2. lia.
        + right. auto. }
    destruct (if negb (length inp =? 0) then _ else _) as [c1 o].
    destruct UP as [[SI SG] [(-> & H' & ONLY)|(-> & H')]].
    + destruct out as [n|]; cbn [wants].
      * assert (S2' : stored_is k (c_id c1) w2) by (rewrite SI; exact S2).
        pose proof (fin_ok dma w2 c1 n k (P ++ inp) HB SG S2' H' TL) as U.
        subst len wants.
        destruct (fin_call E K1 K2 DL dma w2 c1 n) as [[c2 t] o].
        destruct U as [[SI2 SG2] [(-> & -> & H2)|(-> & -> & ->)]].
        -- apply BM_mac.
           ++ destruct (Nat.eq_dec n 0); [right; right; assumption|].
              destruct inp as [|z inp]; [right; left; reflexivity|].
              left. apply ONLY; [reflexivity|assumption|discriminate].
           ++ apply IH; try assumption; [rewrite SI2, SI; exact R|cbn [length]; lia].
        -- destruct inp as [|z inp].
           ++ apply BM_err; [discriminate|]. apply IH; try assumption.
              ** rewrite app_nil_r in H'. exact H'.
              ** rewrite SI. exact R.
           ++ apply BM_err_taken; [discriminate|discriminate|]. apply IH; try assumption.
              ** rewrite SI. exact R.
              ** rewrite app_length. lia.
      * apply BM_in. apply IH; try assumption; [rewrite SI; exact R|rewrite app_length; lia].
    + apply BM_err; [discriminate|]. apply IH; try assumption.
      * rewrite H'. exact H.
      * rewrite SI. exact R.
      * lia.
Qed.

(* Any history of wh_Client_Cmac and wh_Client_CmacDma calls on one object.  Part:
   a call with key, input and MAC by the inline path must not have an input in the
   last bytes that fit a request (see the refutation below). *)
Theorem C64_blocking_partial : forall k c l, is_block ->
  given_or k (c_key c) -> c_st c = st_zero -> Forall (bcall_ok k (c_id c)) l ->
  (N.of_nat (btotal l) < 4294967296)%N ->
  bmeant k [] (mac_brun E K1 K2 DL c l).
Proof.
  intros k c l HB GK Z OK T. apply bstream_from; try assumption.
  rewrite Z. apply holds_zero.
Qed.

(* One call with a key, a message and a MAC buffer does not depend on what the
   object was used for before, nor on the stored keys. *)
Theorem C64_one_call : forall dma w1 w2 c k inp n c' t, is_block ->
  k <> [] -> inp <> [] -> n <> 0 -> (N.of_nat (length inp) < 4294967296)%N ->
  (dma = false -> length inp <= DL - 100) ->
  mac_call E K1 K2 DL dma w1 w2 c k inp (Some n) = (c', t, Done) ->
  t = firstn n (mac k inp).
Proof.
  intros dma w1 w2 c k inp n c' t HB KN NE N0 LI FIT Q.
  unfold mac_call in Q.
  rewrite (proj2 (Nat.eqb_neq (length inp) 0)) in Q by (intros X; apply length_zero_iff_nil in X; contradiction).
  rewrite (proj2 (Nat.eqb_neq (length k) 0)) in Q by (intros X; apply length_zero_iff_nil in X; contradiction).
  rewrite (proj2 (Nat.eqb_neq n 0)) in Q by exact N0.
  cbn [andb negb orb] in Q.
  destruct (tag_ok n) eqn:TO; cbn [negb] in Q; [|discriminate Q].
  assert (F : dma || (length inp <=? MAX_GEN DL) = true).
  { destruct dma; [reflexivity|]. apply Nat.leb_le. unfold MAX_GEN, HDR, MAC_REQ.
    specialize (FIT eq_refl). lia. }
  rewrite F in Q. cbn [andb] in Q.
  unfold gen_call in Q.
  rewrite (proj2 (Nat.eqb_neq (length inp) 0)) in Q by (intros X; apply length_zero_iff_nil in X; contradiction).
  rewrite (proj2 (Nat.eqb_neq n 0)) in Q by exact N0.
  rewrite TO in Q. cbn [orb negb] in Q.
  assert (CK : client_key c k = k).
  { unfold client_key.
    rewrite (proj2 (Nat.eqb_neq (length k) 0)) by (intros X; apply length_zero_iff_nil in X; contradiction).
    reflexivity. }
  rewrite CK in Q.
  destruct (AES_MAX <? length k) eqn:L; [discriminate Q|].
  apply Nat.ltb_ge in L. unfold AES_MAX in L.
  destruct (negb dma && (MAX_GEN DL <? length inp)); [discriminate Q|].
  destruct (no_room DL dma k inp); [discriminate Q|].
  destruct (m_sent w1); cbn [negb] in Q; [|discriminate Q].
  rewrite exchange_eq in Q by exact L. unfold mac_end in Q.
  destruct (m_back w1 && _); [|discriminate Q].
  unfold mac_key in Q.
  rewrite (proj2 (Nat.eqb_neq (length k) 0)) in Q by (intros X; apply length_zero_iff_nil in X; contradiction).
  cbn [negb] in Q. unfold mac_work in Q.
  destruct (m_lib w1); cbn [negb] in Q; [|discriminate Q].
  destruct (key_ok k); cbn [negb] in Q; [|discriminate Q].
  rewrite (proj2 (Nat.eqb_neq (length inp) 0)) in Q by (intros X; apply length_zero_iff_nil in X; contradiction).
  rewrite (proj2 (Nat.eqb_neq n 0)) in Q by exact N0.
  cbn [negb andb] in Q. apply tag_ok_len in TO.
  rewrite (generate_ok E K1 K2 HB) in Q by (try assumption; unfold tag_len, TAG_MIN, TAG_MAX in *; lia).
  unfold restore in Q. cbn [st_zero st_n] in Q. change (BLOCK <? 0) with false in Q.
  rewrite (proj2 (tag_ok_len n) TO) in Q.
  injection Q as _ Q. rewrite <- Q, firstn_firstn, Nat.min_id. reflexivity.
Qed.

(* --- requests are served --- *)

Definition mac_good (w : mac_world) : Prop :=
  m_lib w = true /\ m_sent w = true /\ m_back w = true /\ m_in w = true.

(* The key of a call: given, kept in the object, or stored under its id for
   signing or, failing that usage, for verifying. *)
Definition has_key (w : mac_world) (c : cmac_obj) (key : list byte) : Prop :=
  (In (length key) [16; 24; 32]) \/
  (key = [] /\ c_id c = 0%N /\ In (length (c_key c)) [16; 24; 32]) \/
  (key = [] /\ c_id c <> 0%N /\ exists k, In (length k) [16; 24; 32] /\
     (m_key w false (c_id c) = Key k \/ (m_key w false (c_id c) = NoUse /\ m_key w true (c_id c) = Key k))).

Lemma has_key_ok : forall w c key, has_key w c key ->
  length (client_key c key) <= 32 /\
  (length key <> 0 -> client_key c key = key) /\
  exists k, mac_key w (client_key c key) (c_id c) = Some k /\ key_ok k = true.
Proof.
  assert (KO : forall k : list byte, In (length k) [16; 24; 32] ->
            key_ok k = true /\ (length k =? 0) = false /\ length k <= 32).
  { intros k KL. unfold key_ok. cbn [In] in KL.
    destruct KL as [K|[K|[K|[]]]]; rewrite <- K; repeat split; lia. }
  intros w c key [H|[(-> & I0 & H)|(-> & I0 & k & H & R)]]; unfold client_key.
  - destruct (KO _ H) as (A & B & L). rewrite B. cbn [andb]. split; [exact L|].
    split; [reflexivity|]. exists key. unfold mac_key. rewrite B. cbn [negb]. auto.
  - destruct (KO _ H) as (A & B & L). rewrite I0. cbn [length N.eqb Nat.eqb andb].
    split; [exact L|]. split; [intros X; contradiction X; reflexivity|].
    exists (c_key c). unfold mac_key. rewrite B. cbn [negb]. auto.
  - destruct (KO _ H) as (A & B & L). rewrite (proj2 (N.eqb_neq _ _) I0).
    cbn [length Nat.eqb andb]. split; [lia|]. split; [intros X; contradiction X; reflexivity|].
    exists k. unfold mac_key. cbn [length Nat.eqb negb]. rewrite (proj2 (N.eqb_neq _ _) I0). cbn [negb].
    destruct R as [R|[R1 R2]]; [rewrite R, A|rewrite R1, R2, A]; auto.
Qed.

Theorem C64_served : forall dma w c key inp k P, is_block -> 116 <= DL ->
  holds E k P (c_st c) -> (N.of_nat (length P + length inp) < 4294967296)%N ->
  given_or k key -> given_or k (c_key c) -> stored_is k (c_id c) w ->
  mac_good w -> has_key w c key ->
  (dma = false -> length inp <= DL - 100) ->
  snd (upd_call E K1 K2 DL dma w c key inp) = Done /\
  (inp <> [] -> snd (gen_call E K1 K2 DL dma w c key inp 16 16) = Done) /\
  (key = [] -> snd (fin_call E K1 K2 DL dma w c 16) = Done).
Proof.
  intros dma w c key inp k P HB LD H T G1 G2 ST (M1 & M2 & M3 & M4) HK FIT.
  destruct (has_key_ok w c key HK) as (L & _ & k' & MK & KO).
  pose proof (the_key w c key k k' G1 G2 ST MK) as ->.
  assert (NR : forall i : list byte, length i <= length inp -> no_room DL dma (client_key c key) i = false).
  { intros i LI. unfold no_room, HDR, MAC_DREQ, MAC_REQ. destruct dma.
    - apply Nat.ltb_ge. lia.
    - specialize (FIT eq_refl). apply orb_false_iff. split; apply Nat.ltb_ge; lia. }
  split; [|split].
  - unfold upd_call. rewrite (proj2 (Nat.ltb_ge AES_MAX _)) by exact L.
    destruct ((length inp =? 0) && (length (client_key c key) =? 0)); [reflexivity|].
    rewrite NR, M2 by lia. cbn [negb]. rewrite exchange_eq by exact L.
    rewrite M3, M4, orb_true_r, MK. cbn [andb]. unfold mac_work. rewrite M1, KO. cbn [negb].
    change (0 =? 0) with true. cbn [negb]. rewrite andb_false_r, (holds_small E k P) by exact H.
    assert (H' : holds E k (P ++ inp) (if length inp =? 0 then c_st c else update E k (c_st c) inp)).
    { destruct (length inp =? 0) eqn:ZI.
      - apply Nat.eqb_eq, length_zero_iff_nil in ZI. subst inp. rewrite app_nil_r. exact H.
      - apply holds_update; try assumption. intros ->. discriminate ZI. }
    unfold restore. rewrite (holds_small E k _ _ H'). reflexivity.
  - intros NE. unfold gen_call.
    rewrite (proj2 (Nat.eqb_neq (length inp) 0)) by (intros X; apply length_zero_iff_nil in X; contradiction).
    change (tag_ok 16) with true. cbn [orb negb Nat.eqb].
    rewrite (proj2 (Nat.ltb_ge AES_MAX _)) by exact L.
    assert (MG : negb dma && (MAX_GEN DL <? length inp) = false).
    { destruct dma; [reflexivity|]. cbn [negb andb]. apply Nat.ltb_ge.
      unfold MAX_GEN, HDR, MAC_REQ. specialize (FIT eq_refl). lia. }
    rewrite MG, NR, M2 by lia. cbn [negb]. rewrite exchange_eq by exact L.
    rewrite M3, M4, orb_true_r, MK. cbn [andb]. unfold mac_work. rewrite M1, KO. cbn [negb].
    rewrite (proj2 (Nat.eqb_neq (length inp) 0)) by (intros X; apply length_zero_iff_nil in X; contradiction).
    change (16 =? 0) with false. cbn [negb andb].
    rewrite (generate_ok E K1 K2 HB) by (try assumption; unfold TAG_MIN, TAG_MAX; lia).
    reflexivity.
  - intros ->. unfold fin_call. rewrite (proj2 (Nat.ltb_ge AES_MAX _)) by exact L.
    rewrite NR, M2 by (cbn [length]; lia). cbn [negb]. rewrite exchange_eq by exact L.
    rewrite M3, M4, orb_true_r, MK. cbn [andb]. unfold mac_work. rewrite M1, KO. cbn [negb].
    cbn [length]. change (0 =? 0) with true. change (16 =? 0) with false. cbn [negb andb].
    rewrite (holds_small E k P) by exact H.
    rewrite (final_ok E K1 K2 k P) by (try exact H; unfold TAG_MIN, TAG_MAX; lia).
    reflexivity.
Qed.

End C64.

(* --- runs and refutations, with a toy block function --- *)

Module MacToy.

Definition DL := 200.
Definition kA := repeat 9%N 16.
Definition kB := repeat 5%N 16.
Definition E (k b : list N) : list N :=
  map (fun x => (x + 1 + hd 0 k) mod 256)%N (firstn 16 (skipn 1 b ++ firstn 1 b ++ repeat 0%N 16)).
Definition K1 (k : list N) := repeat 33%N 16.
Definition K2 (k : list N) := repeat 66%N 16.
Definition part (a n : nat) : list N := map N.of_nat (seq a n).
Definition no_keys (u : bool) (id : N) : key_read := NoKey.
Definition up := mkMW no_keys true true true (repeat 0%N DL) true.
Definition down := mkMW no_keys true true false (repeat 0%N DL) true.
Definition store (k : list N) :=
  mkMW (fun u id => if (id =? 7)%N then if u then Key k else NoUse else NoKey) true true true (repeat 0%N DL) true.
Definition fresh := mkObj [] 0%N st_zero.
Definition named := mkObj [] 7%N st_zero.

Lemma E_block : is_block E.
Proof.
  intros k b H. unfold E. rewrite map_length, firstn_length, !app_length, skipn_length, firstn_length, repeat_length.
  lia.
Qed.

(* The hypotheses of the stream theorem hold of a run in four pieces with a lost
   answer, both paths and a message of its own at the end. *)
Definition story : list (mac_world * call) :=
  [(up, Upd false kA (part 1 10)); (down, Upd true [] (part 11 9)); (up, Upd true [] (part 11 22));
   (down, Fin false 16); (up, Upd false [] (part 33 5)); (up, Fin true 8); (up, Gen false kA (part 50 20) 12 16)].

Example C64_stream_runs :
  is_block E /\ given_or kA (c_key fresh) /\ c_st fresh = st_zero /\
  Forall (call_ok kA (c_id fresh)) story /\ (N.of_nat (total story) < 4294967296)%N /\
  map (fun r => snd r) (mac_run E K1 K2 DL fresh story) =
    [([], Done); ([], Err); ([], Done); ([], Err); ([], Done);
     (firstn 8 (mac E K1 K2 kA (part 1 37)), Done); (firstn 12 (mac E K1 K2 kA (part 50 20)), Done)].
Proof.
  split; [exact E_block|]. split; [left; reflexivity|]. split; [reflexivity|].
  split.
  { unfold story, call_ok. repeat apply Forall_cons; try apply Forall_nil; cbn [fst snd call_key call_tag];
      (split; [intros u k' Q; discriminate Q|]);
      (split; [try (left; reflexivity); right; reflexivity|]); unfold tag_len; try exact I; lia. }
  split; [reflexivity|]. vm_compute. reflexivity.
Qed.

(* The key of the object's id, stored for verifying only. *)
Example C64_stream_runs_with_stored_key :
  Forall (call_ok kB (c_id named)) [(store kB, Upd false [] (part 1 40)); (store kB, Fin false 4)] /\
  map (fun r => snd r) (mac_run E K1 K2 DL named
     [(store kB, Upd false [] (part 1 40)); (store kB, Fin false 4)]) =
    [([], Done); (firstn 4 (mac E K1 K2 kB (part 1 40)), Done)].
Proof.
  split.
  { assert (S : stored_is kB 7%N (store kB)) by (intros [|] k' Q; [injection Q as <-; reflexivity|discriminate Q]).
    repeat apply Forall_cons; try apply Forall_nil; (split; [exact S|]);
      (split; [left; reflexivity|]); cbn; unfold tag_len; try exact I; lia. }
  vm_compute. reflexivity.
Qed.

Definition bstory : list bcall :=
  [(up, up, false, kA, part 1 30, None); (up, up, true, [], part 31 30, None);
   (up, up, false, [], part 61 3, Some 16); (up, up, false, kA, part 1 100, Some 4);
   (up, up, true, kA, [], Some 5)].

Example C64_blocking_runs :
  Forall (bcall_ok DL kA (c_id fresh)) bstory /\ (N.of_nat (btotal bstory) < 4294967296)%N /\
  map (fun r => snd r) (mac_brun E K1 K2 DL fresh bstory) =
    [([], Done); ([], Done); (mac E K1 K2 kA (part 1 63), Done);
     (firstn 4 (mac E K1 K2 kA (part 1 100)), Done); (firstn 5 (mac E K1 K2 kA []), Done)].
Proof.
  split.
  { unfold bstory, bcall_ok. repeat apply Forall_cons; try apply Forall_nil;
      (split; [intros u k' Q; discriminate Q|]); (split; [intros u k' Q; discriminate Q|]);
      (split; [try (left; reflexivity); right; reflexivity|]);
      intros; first [discriminate|congruence|left; vm_compute; repeat constructor]. }
  split; [reflexivity|]. vm_compute. reflexivity.
Qed.

Example C64_served_runs :
  is_block E /\ 116 <= DL /\ holds E kA [] (c_st fresh) /\ mac_good up /\ has_key up fresh kA /\
  has_key (store kB) named [] /\ length (part 1 100) <= DL - 100.
Proof.
  split; [exact E_block|]. split; [unfold DL; lia|]. split; [apply holds_zero|].
  split; [repeat split|]. split; [left; cbn; auto|]. split; [|vm_compute; repeat constructor].
  right. right. split; [reflexivity|]. split; [discriminate|]. exists kB.
  split; [cbn; auto|]. right. split; reflexivity.
Qed.

(* One call with key, message and MAC is not always on its own: by the inline path
   a message that fits a request but is longer than a one-message request takes is
   put after what the object was given before.  By DMA it is not. *)
Theorem C64_one_call_is_alone_refuted :
  exists c t, c = fst (upd_call E K1 K2 DL false up fresh kA (part 1 3)) /\
    length (part 1 110) <= DL - 68 - 16 /\
    mac_call E K1 K2 DL false up up c kA (part 1 110) (Some 16) = (mkObj kA 0%N st_zero, t, Done) /\
    t = mac E K1 K2 kA (part 1 3 ++ part 1 110) /\ t <> mac E K1 K2 kA (part 1 110) /\
    mac_call E K1 K2 DL true up up c kA (part 1 110) (Some 16) =
      (mkObj kA 0%N st_zero, mac E K1 K2 kA (part 1 110), Done).
Proof.
  eexists. eexists. split; [reflexivity|]. split; [vm_compute; repeat constructor|].
  split; [vm_compute; reflexivity|]. split; [vm_compute; reflexivity|].
  split; [vm_compute; discriminate|vm_compute; reflexivity].
Qed.

(* A call with input and MAC that failed may have taken the input: repeated, it
   gives the MAC of a message with the input twice. *)
Theorem C64_failed_call_may_be_repeated_refuted :
  exists c c', c = fst (upd_call E K1 K2 DL false up fresh kA (part 1 3)) /\
    mac_call E K1 K2 DL false up down c [] (part 4 5) (Some 16) = (c', [], Err) /\
    mac_call E K1 K2 DL false up up c' [] (part 4 5) (Some 16) =
      (mkObj kA 0%N st_zero, mac E K1 K2 kA (part 1 3 ++ part 4 5 ++ part 4 5), Done) /\
    mac E K1 K2 kA (part 1 3 ++ part 4 5 ++ part 4 5) <> mac E K1 K2 kA (part 1 3 ++ part 4 5).
Proof.
  eexists. eexists. split; [reflexivity|]. split; [vm_compute; reflexivity|].
  split; [vm_compute; reflexivity|vm_compute; discriminate].
Qed.

(* A final with a buffer that cannot hold a tag is refused, but after the stream
   was ended: the next one gives the MAC of no message. *)
Theorem C64_refused_final_keeps_stream_refuted :
  exists c c', c = fst (upd_call E K1 K2 DL false up fresh kA (part 1 3)) /\
    fin_call E K1 K2 DL false up c 3 = (c', [], Err) /\
    fin_call E K1 K2 DL false up c' 16 = (c', mac E K1 K2 kA [], Done) /\
    mac E K1 K2 kA [] <> mac E K1 K2 kA (part 1 3).
Proof.
  eexists. eexists. split; [reflexivity|]. split; [vm_compute; reflexivity|].
  split; [vm_compute; reflexivity|vm_compute; discriminate].
Qed.

(* On an object with a key id a key given with the first piece is not kept: the
   rest is done with the stored key, and the result is a MAC under neither. *)
Theorem C64_given_key_is_kept_refuted :
  exists t, map (fun r => snd r) (mac_run E K1 K2 DL named
      [(store kB, Upd false kA (part 1 20)); (store kB, Fin false 16)]) = [([], Done); (t, Done)] /\
    t <> mac E K1 K2 kA (part 1 20) /\ t <> mac E K1 K2 kB (part 1 20).
Proof. eexists. split; [vm_compute; reflexivity|]. split; vm_compute; discriminate. Qed.

End MacToy.

Print Assumptions C64_stream_partial.
Print Assumptions C64_blocking_partial.
Print Assumptions C64_one_call.
Print Assumptions C64_served.
Print Assumptions MacToy.C64_one_call_is_alone_refuted.
Print Assumptions MacToy.C64_failed_call_may_be_repeated_refuted.
Print Assumptions MacToy.C64_refused_final_keeps_stream_refuted.
Print Assumptions MacToy.C64_given_key_is_kept_refuted.
