(* C63: AES through the server is AES on the caller's bytes, however a message is
   cut into calls. *)
From Coq Require Import Arith NArith List Bool Lia.
From Verif Require Import KdfModel PropertiesKdf AesModel AesSpec AesProof.
Import ListNotations.

Section C63.

Variable E D X : list byte -> list byte -> list byte.
Variable gcm_enc : list byte -> list byte -> list byte -> list byte -> nat ->
                   option (list byte * list byte).
Variable gcm_dec : list byte -> list byte -> list byte -> list byte -> list byte ->
                   option (list byte).
Variable DL : nat.

(* The block functions map blocks to blocks; GCM keeps the length of the text. *)
Definition is_cipher (F : list byte -> list byte -> list byte) : Prop :=
  forall k b, length b = 16 -> length (F k b) = 16.
Definition is_gcm : Prop :=
  (forall k iv aad p n c t, gcm_enc k iv aad p n = Some (c, t) ->
     length c = length p /\ length t = n /\ n <= 16) /\
  (forall k iv aad c t p, gcm_dec k iv aad c t = Some p -> length p = length c).

(* The key the object names: its own bytes, or the stored key of its id. *)
Definition named (a : aes) (enc : bool) (w : world) : option (list byte) :=
  if (a_id a =? 0)%N then Some (a_key a) else w_key w enc (a_id a).

(* In this step the named key is k or there is none; the server's buffer has its
   size; the output buffer is large enough. *)
Definition step_ok (a : aes) (enc : bool) (k : list byte) (s : step) : Prop :=
  (forall k', named a enc (s_world s) = Some k' -> k' = k) /\
  length (w_old (s_world s)) = DL /\
  length (s_msg s) <= length (s_out s).

(* An object that just got its 16-byte iv. *)
Definition fresh (a : aes) (iv : list byte) : Prop :=
  a_reg a = iv /\ length iv = 16 /\ Forall (fun b => (b < 256)%N) iv /\
  length (a_tmp a) = 16 /\ a_left a = 0.

Lemma pick_named : forall w enc a k,
  pick_key w enc (a_id a) (a_key a) = Some k -> named a enc w = Some k.
Proof.
  intros w enc a k. unfold pick_key, named.
  destruct (a_id a =? 0)%N.
  - destruct (key_ok (a_key a)); intros Q; [exact Q|discriminate Q].
  - destruct (w_key w enc (a_id a)) as [x|]; [|discriminate].
    destruct (key_ok x); intros Q; [exact Q|discriminate Q].
Qed.

Lemma firstn_wr : forall (x out : list byte) n, n = length x -> n <= length out ->
  firstn n (wr 0 x out) = x.
Proof.
  intros x out n -> L. unfold wr. cbn [firstn app Nat.add].
  rewrite firstn_app, Nat.sub_diag, firstn_O, app_nil_r. apply firstn_all.
Qed.

Lemma ctr_step_ends : forall a enc s, is_cipher E -> is_cipher X ->
  sound a -> length (w_old (s_world s)) = DL ->
  ctr_ends E X (s_world s) a enc (s_msg s) (s_out s) (ctr_step E X DL a enc s).
Proof.
  intros a enc s HE HX SA LW. unfold ctr_step. destruct (s_dma s).
  - apply ctr_call_dma_ends; assumption.
  - apply ctr_call_ends; assumption.
Qed.

Lemma at_pos_sound : forall F iv q r a,
  at_pos F iv q r (a_reg a) (a_tmp a) (a_left a) -> sound a.
Proof.
  intros F iv q r a (R & T & C). split; [|split; [exact T|]];
    destruct C as [(A & B & G)|(A & B & G & _)]; rewrite ?G, ?B; try apply counter_length; lia.
Qed.

Lemma ctr_stream_from : forall enc k iv l a q r, is_cipher E -> is_cipher X ->
  at_pos (blockf E X enc k) iv q r (a_reg a) (a_tmp a) (a_left a) ->
  Forall (step_ok a enc k) l ->
  let done := snd (stream_of (ctr_step E X DL) a enc l) in
  concat (map snd done) = xs (blockf E X enc k) iv (16 * q + r) (concat (map fst done)).
Proof.
  intros enc k iv l. induction l as [|s l IH]; intros a q r HE HX A OK; [reflexivity|].
  inversion OK as [|? ? S R]; subst. destruct S as (SK & SW & SO).
  cbn [stream_of].
  pose proof (ctr_step_ends a enc s HE HX (at_pos_sound _ _ _ _ _ A) SW) as CE.
  destruct (ctr_step E X DL a enc s) as [[a' out'] o].
  destruct CE as [(-> & k' & x & g & t & lf & PK & LE & -> & ->)|(NO & ->)].
  - apply pick_named, SK in PK. subst k'.
    assert (F16 : forall b, length b = 16 -> length (blockf E X enc k b) = 16).
    { intros b Lb. unfold blockf. destruct enc; [apply HE|apply HX]; exact Lb. }
    destruct (lib_ctr_ok (blockf E X enc k) F16 iv q r (a_reg a) (a_tmp a) (a_left a) (s_msg s) A)
      as (q' & r' & g' & t' & l' & LE' & A' & P).
    rewrite LE in LE'. injection LE' as X1 X2 X3 X4. subst x g' t' l'.
    specialize (IH (mkAes (a_key a) (a_id a) g t lf) q' r' HE HX A').
    assert (R' : Forall (step_ok (mkAes (a_key a) (a_id a) g t lf) enc k) l) by exact R.
    specialize (IH R').
    destruct (stream_of (ctr_step E X DL) (mkAes (a_key a) (a_id a) g t lf) enc l) as [a'' done].
    cbn [snd] in IH. cbn [snd map fst concat].
    rewrite xs_app, IH, P.
    rewrite firstn_wr; [reflexivity| rewrite xs_length; reflexivity|exact SO].
  - specialize (IH a q r HE HX A R).
    destruct (stream_of (ctr_step E X DL) a enc l) as [a'' done].
    destruct o; [contradiction NO; reflexivity| | |]; exact IH.
Qed.

(* CTR: the outputs of the calls that succeeded, put together, are CTR on their
   inputs put together: whatever the cuts, the failures in between and the mix of
   paths. *)
Theorem C63_ctr_stream : forall a iv k l, is_cipher E -> is_cipher X ->
  fresh a iv -> Forall (step_ok a true k) l ->
  let done := snd (stream_of (ctr_step E X DL) a true l) in
  concat (map snd done) = CTR (E k) iv (concat (map fst done)).
Proof.
  intros a iv k l HE HX (FR & FL & FB & FT & FZ) OK done.
  rewrite <- xs_CTR.
  change (xs (E k) iv 0) with (xs (blockf E X true k) iv (16 * 0 + 0)).
  apply ctr_stream_from; try assumption.
  split; [lia|]. split; [exact FT|]. left. split; [reflexivity|]. split; [exact FZ|].
  rewrite FR. symmetry. apply counter_0; assumption.
Qed.

(* With enc = 0 the server runs the same loop under a decryption schedule. *)
Theorem C63_ctr_enc0_stream : forall a iv k l, is_cipher E -> is_cipher X ->
  fresh a iv -> Forall (step_ok a false k) l ->
  let done := snd (stream_of (ctr_step E X DL) a false l) in
  concat (map snd done) = CTR (X k) iv (concat (map fst done)).
Proof.
  intros a iv k l HE HX (FR & FL & FB & FT & FZ) OK done.
  rewrite <- xs_CTR.
  change (xs (X k) iv 0) with (xs (blockf E X false k) iv (16 * 0 + 0)).
  apply ctr_stream_from; try assumption.
  split; [lia|]. split; [exact FT|]. left. split; [reflexivity|]. split; [exact FZ|].
  rewrite FR. symmetry. apply counter_0; assumption.
Qed.

(* Two objects with one key and iv: what the calls on the second make of the
   first's output is the message, cut as it may be. *)
Theorem C63_ctr_roundtrip : forall a b iv k l m, is_cipher E -> is_cipher X ->
  fresh a iv -> fresh b iv -> Forall (step_ok a true k) l -> Forall (step_ok b true k) m ->
  let sent := snd (stream_of (ctr_step E X DL) a true l) in
  let read := snd (stream_of (ctr_step E X DL) b true m) in
  concat (map fst read) = concat (map snd sent) ->
  concat (map snd read) = concat (map fst sent).
Proof.
  intros a b iv k l m HE HX FA FB OA OB sent read J.
  unfold read, sent in *. rewrite (C63_ctr_stream b iv k m HE HX FB OB), J.
  rewrite (C63_ctr_stream a iv k l HE HX FA OA). apply CTR_undo.
Qed.

(* --- ECB and CBC --- *)

Lemma ecb_step_ends : forall a enc s, is_cipher E -> is_cipher D ->
  length (w_old (s_world s)) = DL ->
  ecb_ends E D (s_world s) a enc (s_msg s) (s_out s) (ecb_step E D DL a enc s).
Proof.
  intros a enc s HE HD LW. unfold ecb_step. destruct (s_dma s).
  - apply ecb_call_dma_ends; assumption.
  - apply ecb_call_ends; assumption.
Qed.

Theorem C63_ecb_stream : forall a enc k l, is_cipher E -> is_cipher D ->
  Forall (step_ok a enc k) l ->
  let done := snd (stream_of (ecb_step E D DL) a enc l) in
  concat (map snd done) = ECB ((if enc then E else D) k) (concat (map fst done)).
Proof.
  intros a enc k l HE HD. induction l as [|s l IH]; intros OK; [reflexivity|].
  inversion OK as [|? ? S R]; subst. destruct S as (SK & SW & SO). specialize (IH R).
  cbn [stream_of].
  pose proof (ecb_step_ends a enc s HE HD SW) as CE.
  destruct (ecb_step E D DL a enc s) as [[a' out'] o].
  destruct CE as [(-> & -> & (n & W) & K)|(NO & ->)].
  - destruct (stream_of (ecb_step E D DL) a enc l) as [a'' done]. cbn [snd] in IH.
    cbn [snd map fst concat].
    rewrite (ECB_app _ n) by exact W. rewrite <- IH. f_equal.
    destruct K as [(EM & ->)|(k' & PK & ->)].
    + rewrite EM. reflexivity.
    + apply pick_named, SK in PK. subst k'.
      rewrite firstn_wr; [unfold blockd; destruct enc; reflexivity| |exact SO].
      symmetry. apply (ECB_length _ (blockd_16 E D HE HD enc k) n). exact W.
  - destruct (stream_of (ecb_step E D DL) a enc l) as [a'' done].
    destruct o; [contradiction NO; reflexivity| | |]; exact IH.
Qed.

Lemma cbc_step_ends : forall a enc s, is_cipher E -> is_cipher D ->
  length (a_reg a) = 16 -> length (w_old (s_world s)) = DL ->
  cbc_ends E D (s_world s) a enc (s_msg s) (s_out s) (cbc_step E D DL a enc s).
Proof.
  intros a enc s HE HD LR LW. unfold cbc_step. destruct (s_dma s).
  - apply cbc_call_dma_ends; assumption.
  - apply cbc_call_ends; assumption.
Qed.

Lemma cbc_stream_from : forall enc k l a, is_cipher E -> is_cipher D ->
  length (a_reg a) = 16 -> Forall (step_ok a enc k) l ->
  let done := snd (stream_of (cbc_step E D DL) a enc l) in
  concat (map snd done) = CBC E D enc k (a_reg a) (concat (map fst done)).
Proof.
  intros enc k l. induction l as [|s l IH]; intros a HE HD LR OK.
  { cbn [stream_of snd map concat]. destruct enc; reflexivity. }
  inversion OK as [|? ? S R]; subst. destruct S as (SK & SW & SO).
  cbn [stream_of].
  pose proof (cbc_step_ends a enc s HE HD LR SW) as CE.
  destruct (cbc_step E D DL a enc s) as [[a' out'] o].
  destruct CE as [(-> & (n & W) & K)|(NO & ->)].
  - destruct K as [(EM & -> & ->)|(k' & PK & -> & ->)].
    + specialize (IH a HE HD LR R).
      destruct (stream_of (cbc_step E D DL) a enc l) as [a'' done]. cbn [snd] in IH.
      cbn [snd map fst concat]. rewrite EM. cbn [length firstn app]. exact IH.
    + apply pick_named, SK in PK. subst k'.
      destruct (CBC_length E D HE HD enc k (a_reg a) n (s_msg s) LR W) as [LC LR'].
      set (a1 := mkAes (a_key a) (a_id a) (carry E enc k (a_reg a) (s_msg s)) (a_tmp a) (a_left a)).
      specialize (IH a1 HE HD LR' R).
      destruct (stream_of (cbc_step E D DL) a1 enc l) as [a'' done]. cbn [snd] in IH.
      cbn [snd map fst concat]. rewrite IH.
      rewrite (CBC_app E D enc k (a_reg a) n) by exact W. f_equal.
      apply firstn_wr; [symmetry; exact LC|exact SO].
  - specialize (IH a HE HD LR R).
    destruct (stream_of (cbc_step E D DL) a enc l) as [a'' done].
    destruct o; [contradiction NO; reflexivity| | |]; exact IH.
Qed.

Theorem C63_cbc_encrypt_stream : forall a k l, is_cipher E -> is_cipher D ->
  length (a_reg a) = 16 -> Forall (step_ok a true k) l ->
  let done := snd (stream_of (cbc_step E D DL) a true l) in
  concat (map snd done) = CBC_enc (E k) (a_reg a) (concat (map fst done)).
Proof. intros a k l HE HD LR OK. exact (cbc_stream_from true k l a HE HD LR OK). Qed.

Theorem C63_cbc_decrypt_stream : forall a k l, is_cipher E -> is_cipher D ->
  length (a_reg a) = 16 -> Forall (step_ok a false k) l ->
  let done := snd (stream_of (cbc_step E D DL) a false l) in
  concat (map snd done) = CBC_dec (D k) (a_reg a) (concat (map fst done)).
Proof. intros a k l HE HD LR OK. exact (cbc_stream_from false k l a HE HD LR OK). Qed.

Lemma cbc_done_whole : forall enc k l a, is_cipher E -> is_cipher D ->
  length (a_reg a) = 16 -> Forall (step_ok a enc k) l ->
  exists n, length (concat (map fst (snd (stream_of (cbc_step E D DL) a enc l)))) = 16 * n.
Proof.
  intros enc k l. induction l as [|s l IH]; intros a HE HD LR OK.
  { exists 0. reflexivity. }
  inversion OK as [|? ? S R]; subst. destruct S as (SK & SW & SO).
  cbn [stream_of].
  pose proof (cbc_step_ends a enc s HE HD LR SW) as CE.
  destruct (cbc_step E D DL a enc s) as [[a' out'] o].
  destruct CE as [(-> & (n & W) & K)|(NO & ->)].
  - assert (G : exists m, length (concat (map fst (snd (stream_of (cbc_step E D DL) a' enc l)))) = 16 * m).
    { destruct K as [(EM & -> & ->)|(k' & PK & -> & ->)].
      - apply IH; assumption.
      - apply pick_named, SK in PK. subst k'.
        destruct (CBC_length E D HE HD enc k (a_reg a) n (s_msg s) LR W) as [LC LR'].
        apply IH; assumption. }
    destruct G as [m G]. destruct (stream_of (cbc_step E D DL) a' enc l) as [a'' done].
    cbn [snd] in G. exists (n + m). cbn [snd map fst concat]. rewrite app_length. lia.
  - destruct (IH a HE HD LR R) as [m G].
    destruct (stream_of (cbc_step E D DL) a enc l) as [a'' done].
    exists m. destruct o; [contradiction NO; reflexivity| | |]; exact G.
Qed.

Theorem C63_cbc_roundtrip : forall a b k l m, is_cipher E -> is_cipher D ->
  (forall b, length b = 16 -> D k (E k b) = b) ->
  length (a_reg a) = 16 -> a_reg b = a_reg a ->
  Forall (step_ok a true k) l -> Forall (step_ok b false k) m ->
  let sent := snd (stream_of (cbc_step E D DL) a true l) in
  let read := snd (stream_of (cbc_step E D DL) b false m) in
  concat (map fst read) = concat (map snd sent) ->
  concat (map snd read) = concat (map fst sent).
Proof.
  intros a b k l m HE HD I LR RR OA OB sent read J. unfold sent, read in *.
  assert (LR' : length (a_reg b) = 16) by (rewrite RR; exact LR).
  rewrite (C63_cbc_decrypt_stream b k m HE HD LR' OB), J.
  rewrite (C63_cbc_encrypt_stream a k l HE HD LR OA), RR.
  destruct (cbc_done_whole true k l a HE HD LR OA) as [n W].
  apply (CBC_undo (E k) (D k) (HE k) I n); assumption.
Qed.

(* --- a call that fails --- *)

(* A call that does not succeed leaves the object as it was, so it can be made
   again; in the inline path the output buffer too. *)
Theorem C63_failed_call_changes_nothing : forall a enc s,
  is_cipher E -> is_cipher D -> is_cipher X ->
  sound a -> length (w_old (s_world s)) = DL ->
  forall one, one = ctr_step E X DL \/ one = ecb_step E D DL \/ one = cbc_step E D DL ->
  snd (one a enc s) <> Done ->
  fst (fst (one a enc s)) = a /\ (s_dma s = false -> snd (fst (one a enc s)) = s_out s).
Proof.
  intros a enc s HE HD HX SA LW one [-> |[-> | ->]] ND.
  - split.
    + pose proof (ctr_step_ends a enc s HE HX SA LW) as CE.
      destruct (ctr_step E X DL a enc s) as [[a' out'] o]. cbn [snd fst] in *.
      destruct CE as [(-> & _)|(_ & ->)]; [contradiction ND; reflexivity|reflexivity].
    + intros SD. unfold ctr_step in *. rewrite SD in *.
      apply ctr_call_ends; assumption.
  - split.
    + pose proof (ecb_step_ends a enc s HE HD LW) as CE.
      destruct (ecb_step E D DL a enc s) as [[a' out'] o]. cbn [snd fst] in *.
      destruct CE as [(-> & _)|(_ & ->)]; [contradiction ND; reflexivity|reflexivity].
    + intros SD. unfold ecb_step in *. rewrite SD in *.
      apply ecb_call_ends; assumption.
  - destruct SA as (LR & _ & _). split.
    + pose proof (cbc_step_ends a enc s HE HD LR LW) as CE.
      destruct (cbc_step E D DL a enc s) as [[a' out'] o]. cbn [snd fst] in *.
      destruct CE as [(-> & _)|(_ & ->)]; [contradiction ND; reflexivity|reflexivity].
    + intros SD. unfold cbc_step in *. rewrite SD in *.
      apply cbc_call_ends; assumption.
Qed.

(* --- GCM --- *)

(* Encryption gives the text and tag of exactly the caller's key, iv, aad and
   message; decryption gives a text only when the library accepted the tag.  In
   the inline path a call that fails gives nothing. *)
Theorem C63_gcm : forall w a enc msg iv aad tag out out' tag' o,
  is_gcm -> (N.of_nat DL < 4294967296 - 100)%N -> length (w_old w) = DL ->
  gcm_call gcm_enc gcm_dec DL w a enc msg iv aad tag out = (out', tag', o) ->
  (o = Done -> exists k x, named a enc w = Some k /\ out' = wr 0 x out /\
     if enc then gcm_enc k iv aad msg (length tag) = Some (x, tag')
     else gcm_dec k iv aad msg tag = Some x /\ tag' = tag) /\
  (o <> Done -> out' = out /\ tag' = tag).
Proof.
  intros w a enc msg iv aad tag out out' tag' o [G1 G2] S LW C.
  pose proof (gcm_call_ends gcm_enc gcm_dec DL G1 G2 S w a enc msg iv aad tag out LW) as GE.
  rewrite C in GE. cbn [gcm_ends] in GE.
  destruct GE as [(-> & k & x & PK & GG & ->)|(NO & -> & ->)].
  - split; [|intros N'; contradiction N'; reflexivity]. intros _.
    exists k, x. split; [apply pick_named; exact PK|]. split; [reflexivity|].
    unfold gcm_gives in GG. destruct enc; exact GG.
  - split; [intros ->; contradiction NO; reflexivity|auto].
Qed.

(* With DMA a failed call may have written the output buffer, but only with the
   library's result on the caller's arguments: never a text whose tag was
   refused. *)
Theorem C63_gcm_dma : forall w a enc msg iv aad tag out out' tag' o,
  is_gcm -> (N.of_nat DL < 4294967296 - 100)%N -> length (w_old w) = DL ->
  gcm_call_dma gcm_enc gcm_dec DL w a enc msg iv aad tag out = (out', tag', o) ->
  (o = Done -> exists k x, named a enc w = Some k /\ out' = wr 0 x out /\
     if enc then gcm_enc k iv aad msg (length tag) = Some (x, tag')
     else gcm_dec k iv aad msg tag = Some x /\ tag' = tag) /\
  (o <> Done -> tag' = tag /\ (out' = out \/
     exists k x t, named a enc w = Some k /\ out' = wr 0 x out /\
     if enc then gcm_enc k iv aad msg (length tag) = Some (x, t)
     else gcm_dec k iv aad msg tag = Some x)).
Proof.
  intros w a enc msg iv aad tag out out' tag' o [G1 G2] S LW C.
  pose proof (gcm_call_dma_ends gcm_enc gcm_dec DL G1 S w a enc msg iv aad tag out LW) as GE.
  rewrite C in GE. cbn [gcm_ends_dma] in GE.
  destruct GE as [(-> & k & x & PK & GG & ->)|(NO & -> & K)].
  - split; [|intros N'; contradiction N'; reflexivity]. intros _.
    exists k, x. split; [apply pick_named; exact PK|]. split; [reflexivity|].
    unfold gcm_gives in GG. destruct enc; exact GG.
  - split; [intros ->; contradiction NO; reflexivity|]. intros _. split; [reflexivity|].
    destruct K as [->|(k & x & t & PK & GG & ->)]; [left; reflexivity|right].
    exists k, x, t. split; [apply pick_named; exact PK|]. split; [reflexivity|].
    unfold gcm_gives in GG. destruct enc; [exact GG|apply GG].
Qed.

(* --- which calls are served, and how a call may end --- *)

Definition good (w : world) : Prop :=
  w_lib w = true /\ w_sent w = true /\ w_back w = true /\
  w_in w = true /\ w_out w = true /\ w_post w = true.

Lemma fits_ok : forall n, (N.of_nat n < 4294967296)%N -> n <= DL -> fits DL n = true.
Proof.
  intros n S L. unfold fits, w32. rewrite N.mod_small by exact S. apply N.leb_le. lia.
Qed.

(* A call that fits the buffer, with a key of AES's sizes, on a server that finds
   nothing wrong, succeeds; with DMA whatever the length of the message. *)
Theorem C63_ctr_served : forall a enc s k,
  sound a -> good (s_world s) -> (N.of_nat DL < 4294967296)%N ->
  named a enc (s_world s) = Some k -> In (length k) [16; 24; 32] ->
  (if s_dma s then 92 + length (a_key a) <= DL
   else 64 + length (s_msg s) + length (a_key a) <= DL) ->
  snd (ctr_step E X DL a enc s) = Done.
Proof.
  intros a enc s k (SR & ST & SL) (G1 & G2 & G3 & G4 & G5 & G6) S NM KL FIT.
  assert (KO : key_ok k = true).
  { unfold key_ok. cbn [In] in KL. destruct KL as [K|[K|[K|[]]]]; rewrite <- K; reflexivity. }
  assert (PK : pick_key (s_world s) enc (a_id a) (a_key a) = Some k).
  { unfold pick_key. unfold named in NM. rewrite NM, KO. reflexivity. }
  assert (LF : (BLOCK <? a_left a) = false) by (apply Nat.ltb_ge; exact SL).
  unfold ctr_step. destruct (s_dma s).
  - unfold ctr_call_dma, ctr_serve_dma.
    assert (LK : length (dma_key a) <= length (a_key a)).
    { unfold dma_key. destruct (a_id a =? 0)%N; cbn [length]; lia. }
    rewrite fits_ok; [|unfold HDR, CTR_DREQ, BLOCK; lia|unfold HDR, CTR_DREQ, BLOCK; lia].
    cbn [negb]. rewrite (proj2 (Nat.ltb_ge DL _)) by (unfold HDR, CTR_DREQ, BLOCK; lia).
    rewrite G2, G3, G4, G5, G1, G6, LF. cbn [negb].
    rewrite (proj2 (Nat.ltb_ge _ CTR_DREQ)) by lia.
    rewrite (proj2 (Nat.eqb_eq _ _)) by lia. cbn [negb].
    rewrite Nat.eqb_refl. cbn [negb].
    replace (rd (HDR + CTR_DREQ + BLOCK + BLOCK) (length (dma_key a))
              (got (s_world s) CTR_DREQ (a_reg a ++ a_tmp a ++ dma_key a))) with (dma_key a).
    2:{ symmetry. rewrite (app_assoc (a_reg a)). rewrite <- (app_nil_r (dma_key a)) at 2.
        apply got_rd; [rewrite app_length, SR, ST; unfold BLOCK; lia|reflexivity]. }
    rewrite pick_dma_same, PK.
    match goal with |- context [lib_ctr ?f ?r ?t ?l ?m] => destruct (lib_ctr f r t l m) as [o [[x y] z]] end.
    reflexivity.
  - unfold ctr_call, ctr_serve.
    rewrite fits_ok; [|unfold HDR, CTR_REQ, BLOCK; lia|unfold HDR, CTR_REQ, BLOCK; lia].
    cbn [negb]. rewrite (proj2 (Nat.ltb_ge DL _)) by (unfold HDR, CTR_REQ, BLOCK; lia).
    rewrite G2, G3, G1, LF. cbn [negb].
    rewrite (proj2 (Nat.ltb_ge _ CTR_REQ)) by lia.
    rewrite (proj2 (Nat.eqb_eq _ _)) by lia. cbn [negb].
    rewrite got_rd by reflexivity. rewrite PK.
    match goal with |- context [lib_ctr ?f ?r ?t ?l ?m] => destruct (lib_ctr f r t l m) as [o [[x y] z]] end.
    reflexivity.
Qed.

Lemma named_picked : forall w a enc k, named a enc w = Some k -> In (length k) [16; 24; 32] ->
  pick_key w enc (a_id a) (a_key a) = Some k.
Proof.
  intros w a enc k NM KL. unfold pick_key. unfold named in NM. rewrite NM.
  assert (KO : key_ok k = true).
  { unfold key_ok. cbn [In] in KL. destruct KL as [K|[K|[K|[]]]]; rewrite <- K; reflexivity. }
  rewrite KO. reflexivity.
Qed.

Lemma dma_key_short : forall a, length (dma_key a) <= length (a_key a).
Proof. intros a. unfold dma_key. destruct (a_id a =? 0)%N; cbn [length]; lia. Qed.

(* The inline path refuses from 1 MiB on: no message of that size fits a buffer
   of less. *)
Lemma blocks16_small : forall m : list byte, length m mod BLOCK = 0 -> m <> [] ->
  (N.of_nat (length m) < 1048576)%N -> (blocks16 (length m) =? 0)%N = false.
Proof.
  intros m M Z B. apply N.eqb_neq. unfold blocks16.
  destruct (whole_of_mod m M) as [n W].
  assert (Q : (N.of_nat (length m) / 16 = N.of_nat n)%N).
  { symmetry. apply (N.div_unique _ _ _ 0); lia. }
  rewrite Q, N.mod_small by lia. destruct m; [contradiction Z; reflexivity|].
  cbn [length] in W. lia.
Qed.

Theorem C63_ecb_served : forall a enc s k,
  good (s_world s) -> (N.of_nat DL < 1048576)%N ->
  named a enc (s_world s) = Some k -> In (length k) [16; 24; 32] ->
  length (s_msg s) mod 16 = 0 ->
  (if s_dma s then 60 + length (a_key a) <= DL
   else 28 + length (s_msg s) + length (a_key a) <= DL) ->
  snd (ecb_step E D DL a enc s) = Done.
Proof.
  intros a enc s k (G1 & G2 & G3 & G4 & G5 & G6) S NM KL M FIT.
  pose proof (named_picked _ _ _ _ NM KL) as PK. pose proof (dma_key_short a) as LK.
  assert (Z : s_msg s = [] \/ (length (s_msg s) =? 0) = false /\ s_msg s <> []).
  { destruct (s_msg s); [left; reflexivity|right; split; [reflexivity|discriminate]]. }
  unfold ecb_step. destruct (s_dma s).
  - unfold ecb_call_dma, ecb_serve_dma. change (length (s_msg s) mod BLOCK) with (length (s_msg s) mod 16).
    rewrite M. change (0 =? 0) with true. cbn [negb].
    destruct Z as [-> |[Z NE]]; [reflexivity|rewrite Z].
    rewrite fits_ok; [|unfold HDR, ECB_DREQ; lia|unfold HDR, ECB_DREQ; lia].
    cbn [negb]. rewrite (proj2 (Nat.ltb_ge DL _)) by (unfold HDR, ECB_DREQ; lia).
    rewrite G2, G3, G4, G5, G1, G6. cbn [negb].
    rewrite (proj2 (Nat.ltb_ge _ ECB_DREQ)) by lia.
    rewrite (proj2 (Nat.eqb_eq _ _)) by lia. cbn [negb].
    rewrite Nat.eqb_refl. cbn [negb].
    replace (rd (HDR + ECB_DREQ) (length (dma_key a)) (got (s_world s) ECB_DREQ (dma_key a)))
      with (dma_key a).
    2:{ symmetry. rewrite <- (app_nil_l (dma_key a)) at 2. rewrite <- (app_nil_r (dma_key a)) at 2.
        apply got_rd; [cbn [length]; lia|reflexivity]. }
    rewrite pick_dma_same, PK. reflexivity.
  - unfold ecb_call, ecb_serve. change (length (s_msg s) mod BLOCK) with (length (s_msg s) mod 16).
    rewrite M. change (0 =? 0) with true. cbn [negb].
    destruct Z as [-> |[Z NE]]; [reflexivity|rewrite Z].
    rewrite blocks16_small; [|exact M|exact NE|lia].
    rewrite fits_ok; [|unfold HDR, ECB_REQ; lia|unfold HDR, ECB_REQ; lia].
    cbn [negb]. rewrite (proj2 (Nat.ltb_ge DL _)) by (unfold HDR, ECB_REQ; lia).
    rewrite G2, G3, G1. cbn [negb].
    rewrite (proj2 (Nat.ltb_ge _ ECB_REQ)) by lia.
    rewrite (proj2 (Nat.eqb_eq _ _)) by lia. cbn [negb].
    replace (rd (HDR + ECB_REQ + length (s_msg s)) (length (a_key a))
              (got (s_world s) ECB_REQ (s_msg s ++ a_key a))) with (a_key a).
    2:{ symmetry. rewrite <- (app_nil_r (a_key a)) at 2. apply got_rd; reflexivity. }
    rewrite PK. reflexivity.
Qed.

Theorem C63_cbc_served : forall a enc s k,
  length (a_reg a) = 16 -> good (s_world s) -> (N.of_nat DL < 1048576)%N ->
  named a enc (s_world s) = Some k -> In (length k) [16; 24; 32] ->
  length (s_msg s) mod 16 = 0 ->
  (if s_dma s then 76 + length (a_key a) <= DL
   else 44 + length (s_msg s) + length (a_key a) <= DL) ->
  snd (cbc_step E D DL a enc s) = Done.
Proof.
  intros a enc s k SR (G1 & G2 & G3 & G4 & G5 & G6) S NM KL M FIT.
  pose proof (named_picked _ _ _ _ NM KL) as PK. pose proof (dma_key_short a) as LK.
  assert (Z : s_msg s = [] \/ (length (s_msg s) =? 0) = false /\ s_msg s <> []).
  { destruct (s_msg s); [left; reflexivity|right; split; [reflexivity|discriminate]]. }
  unfold cbc_step. destruct (s_dma s).
  - unfold cbc_call_dma, cbc_serve_dma. change (length (s_msg s) mod BLOCK) with (length (s_msg s) mod 16).
    rewrite M. change (0 =? 0) with true. cbn [negb].
    destruct Z as [-> |[Z NE]]; [reflexivity|rewrite Z].
    rewrite fits_ok; [|unfold HDR, CBC_DREQ, BLOCK; lia|unfold HDR, CBC_DREQ, BLOCK; lia].
    cbn [negb]. rewrite (proj2 (Nat.ltb_ge DL _)) by (unfold HDR, CBC_DREQ, BLOCK; lia).
    rewrite G2, G3, G4, G5, G1, G6. cbn [negb].
    rewrite (proj2 (Nat.ltb_ge _ CBC_DREQ)) by lia.
    rewrite (proj2 (Nat.eqb_eq _ _)) by lia. cbn [negb].
    rewrite Nat.eqb_refl. cbn [negb].
    replace (rd (HDR + CBC_DREQ + BLOCK) (length (dma_key a))
              (got (s_world s) CBC_DREQ (a_reg a ++ dma_key a))) with (dma_key a).
    2:{ symmetry. rewrite <- (app_nil_r (dma_key a)) at 2.
        apply got_rd; [rewrite SR; reflexivity|reflexivity]. }
    rewrite pick_dma_same, PK.
    match goal with |- context [lib_cbc ?e ?d ?x ?f ?r ?m] => destruct (lib_cbc e d x f r m) as [o r'] end.
    reflexivity.
  - unfold cbc_call, cbc_serve. change (length (s_msg s) mod BLOCK) with (length (s_msg s) mod 16).
    rewrite M. change (0 =? 0) with true. cbn [negb].
    destruct Z as [-> |[Z NE]]; [reflexivity|rewrite Z].
    rewrite blocks16_small; [|exact M|exact NE|lia].
    rewrite fits_ok; [|unfold HDR, CBC_REQ, BLOCK; lia|unfold HDR, CBC_REQ, BLOCK; lia].
    cbn [negb]. rewrite (proj2 (Nat.ltb_ge DL _)) by (unfold HDR, CBC_REQ, BLOCK; lia).
    rewrite G2, G3, G1. cbn [negb].
    rewrite (proj2 (Nat.ltb_ge _ CBC_REQ)) by lia.
    rewrite (proj2 (Nat.eqb_eq _ _)) by lia. cbn [negb].
    rewrite got_rd by reflexivity. rewrite PK.
    match goal with |- context [lib_cbc ?e ?d ?x ?f ?r ?m] => destruct (lib_cbc e d x f r m) as [o r'] end.
    reflexivity.
Qed.

(* GCM: when the library gives a result on the caller's arguments and request and
   answer fit. *)
Theorem C63_gcm_served : forall w a enc msg iv aad tag out k,
  is_gcm -> good w -> (N.of_nat DL < 4294967296 - 100)%N -> length (w_old w) = DL ->
  named a enc w = Some k -> In (length k) [16; 24; 32] ->
  (if enc then gcm_enc k iv aad msg (length tag) <> None
   else gcm_dec k iv aad msg tag <> None) ->
  40 + length msg + length (a_key a) + length iv + length aad + length tag <= DL ->
  snd (gcm_call gcm_enc gcm_dec DL w a enc msg iv aad tag out) = Done.
Proof.
  intros w a enc msg iv aad tag out k [Q1 Q2] (G1 & G2 & G3 & G4 & G5 & G6) S LW NM KL LIB FIT.
  pose proof (named_picked _ _ _ _ NM KL) as PK.
  unfold gcm_call, gcm_serve.
  rewrite fits_ok; [|destruct enc; unfold HDR, GCM_REQ; lia|destruct enc; unfold HDR, GCM_REQ; lia].
  cbn [negb]. rewrite (proj2 (Nat.ltb_ge DL _)) by (destruct enc; unfold HDR, GCM_REQ; lia).
  rewrite G2, G3, G1. cbn [negb].
  rewrite (proj2 (Nat.ltb_ge _ GCM_REQ)) by lia.
  rewrite (proj2 (Nat.eqb_eq _ _)) by (destruct enc; lia). cbn [negb].
  rewrite (proj2 (N.ltb_ge _ _)).
  2:{ unfold w32. rewrite N.mod_small; destruct enc; unfold HDR, GCM_REQ; lia. }
  replace (rd (HDR + GCM_REQ) (length msg)
             (got w GCM_REQ (msg ++ a_key a ++ iv ++ aad ++ (if enc then [] else tag)))) with msg.
  2:{ symmetry. rewrite <- (app_nil_l (msg ++ _)). apply got_rd; [cbn [length]; lia|reflexivity]. }
  rewrite got_rd by reflexivity. rewrite PK.
  replace (rd (HDR + GCM_REQ + length msg + length (a_key a)) (length iv)
             (got w GCM_REQ (msg ++ a_key a ++ iv ++ aad ++ (if enc then [] else tag)))) with iv.
  2:{ symmetry. rewrite (app_assoc msg). apply got_rd; [rewrite app_length; lia|reflexivity]. }
  replace (rd (HDR + GCM_REQ + length msg + length (a_key a) + length iv) (length aad)
             (got w GCM_REQ (msg ++ a_key a ++ iv ++ aad ++ (if enc then [] else tag)))) with aad.
  2:{ symmetry. rewrite (app_assoc msg), (app_assoc (msg ++ a_key a)).
      apply got_rd; [rewrite !app_length; lia|reflexivity]. }
  destruct enc.
  - destruct (gcm_enc k iv aad msg (length tag)) as [[c t]|]; [|contradiction LIB; reflexivity].
    rewrite (proj2 (Nat.ltb_ge _ _)) by lia. rewrite (proj2 (Nat.ltb_ge _ _)) by lia. reflexivity.
  - replace (rd (HDR + GCM_REQ + length msg + length (a_key a) + length iv + length aad) (length tag)
               (got w GCM_REQ (msg ++ a_key a ++ iv ++ aad ++ tag))) with tag.
    2:{ symmetry. rewrite (app_assoc msg), (app_assoc (msg ++ a_key a)), (app_assoc ((msg ++ a_key a) ++ iv)).
        rewrite <- (app_nil_r tag) at 2.
        apply got_rd; [rewrite !app_length; lia|reflexivity]. }
    destruct (gcm_dec k iv aad msg tag) as [c|]; [|contradiction LIB; reflexivity].
    rewrite (proj2 (Nat.ltb_ge _ _)) by lia. rewrite (proj2 (Nat.ltb_ge _ _)) by lia. reflexivity.
Qed.

(* The same with DMA, whatever the lengths of message and aad. *)
Theorem C63_gcm_dma_served : forall w a enc msg iv aad tag out k,
  is_gcm -> good w -> (N.of_nat DL < 4294967296 - 100)%N -> length (w_old w) = DL ->
  named a enc w = Some k -> In (length k) [16; 24; 32] ->
  (if enc then gcm_enc k iv aad msg (length tag) <> None
   else gcm_dec k iv aad msg tag <> None) ->
  84 + length (a_key a) + length iv + length tag <= DL ->
  snd (gcm_call_dma gcm_enc gcm_dec DL w a enc msg iv aad tag out) = Done.
Proof.
  intros w a enc msg iv aad tag out k [Q1 Q2] (G1 & G2 & G3 & G4 & G5 & G6) S LW NM KL LIB FIT.
  pose proof (named_picked _ _ _ _ NM KL) as PK. pose proof (dma_key_short a) as LK.
  unfold gcm_call_dma, gcm_serve_dma.
  rewrite fits_ok; [|destruct enc; unfold HDR, GCM_DREQ; lia|destruct enc; unfold HDR, GCM_DREQ; lia].
  cbn [negb]. rewrite (proj2 (Nat.ltb_ge DL _)) by (destruct enc; unfold HDR, GCM_DREQ; lia).
  rewrite G2, G3, G4, G5, G1, G6. cbn [negb].
  rewrite (proj2 (Nat.ltb_ge _ GCM_DREQ)) by lia.
  rewrite (proj2 (Nat.eqb_eq _ _)) by (destruct enc; lia). cbn [negb].
  rewrite Nat.eqb_refl. cbn [negb].
  replace (rd (HDR + GCM_DREQ) (length iv)
             (got w GCM_DREQ (iv ++ (if enc then [] else tag) ++ dma_key a))) with iv.
  2:{ symmetry. rewrite <- (app_nil_l (iv ++ _)). apply got_rd; [cbn [length]; lia|reflexivity]. }
  replace (rd (HDR + GCM_DREQ + length iv + (if enc then 0 else length tag)) (length (dma_key a))
             (got w GCM_DREQ (iv ++ (if enc then [] else tag) ++ dma_key a))) with (dma_key a).
  2:{ symmetry. rewrite app_assoc. rewrite <- (app_nil_r (dma_key a)) at 2.
      apply got_rd; [rewrite app_length; destruct enc; cbn [length]; lia|reflexivity]. }
  rewrite pick_dma_same, PK.
  destruct enc.
  - destruct (gcm_enc k iv aad msg (length tag)) as [[c t]|]; [|contradiction LIB; reflexivity].
    rewrite (proj2 (Nat.ltb_ge _ _)) by lia. reflexivity.
  - rewrite got_rd by reflexivity.
    destruct (gcm_dec k iv aad msg tag) as [c|]; [|contradiction LIB; reflexivity].
    rewrite (proj2 (Nat.ltb_ge _ _)) by lia. reflexivity.
Qed.

(* Part of: every call returns and writes inside its buffers.  It does for
   messages well below 4 GiB that are not a multiple of 1 MiB (ECB and CBC). *)
Theorem C63_every_call_returns_partial : forall a enc s,
  (N.of_nat (length (s_msg s) + length (a_key a)) < 4294967296 - 100)%N ->
  (N.of_nat (length (s_msg s)) < 1048576)%N ->
  forall one, one = ctr_step E X DL \/ one = ecb_step E D DL \/ one = cbc_step E D DL ->
  snd (one a enc s) = Done \/ snd (one a enc s) = Err.
Proof.
  intros a enc s S B one O.
  assert (FIT : forall n, (N.of_nat n < 4294967296)%N -> fits DL n = true -> (DL <? n) = false).
  { intros n Sn F. unfold fits, w32 in F. rewrite N.mod_small in F by exact Sn.
    apply N.leb_le in F. apply Nat.ltb_ge. lia. }
  assert (BL : length (s_msg s) mod BLOCK = 0 -> length (s_msg s) <> 0 ->
               (blocks16 (length (s_msg s)) =? 0)%N = false).
  { intros M Z. apply N.eqb_neq. unfold blocks16.
    destruct (whole_of_mod (s_msg s) M) as [n W].
    assert (Q : (N.of_nat (length (s_msg s)) / 16 = N.of_nat n)%N).
    { symmetry. apply (N.div_unique _ _ _ 0); lia. }
    rewrite Q, N.mod_small by lia. lia. }
  assert (LK : length (dma_key a) <= length (a_key a)).
  { unfold dma_key. destruct (a_id a =? 0)%N; cbn [length]; lia. }
  destruct O as [-> |[-> | ->]].
  - unfold ctr_step. destruct (s_dma s); [unfold ctr_call_dma|unfold ctr_call];
      (match goal with |- context [fits DL ?n] =>
         destruct (fits DL n) eqn:F; cbn [negb]; [|auto];
         rewrite (FIT n) by (try exact F; unfold HDR, CTR_REQ, CTR_DREQ, BLOCK in *; lia) end;
       destruct (w_sent (s_world s)); cbn [negb]; [|auto]).
    + match goal with |- context [ctr_serve_dma ?a1 ?a2 ?a3 ?a4 ?a5 ?a6 ?a7 ?a8 ?a9 ?b1 ?b2 ?b3] =>
        destruct (ctr_serve_dma a1 a2 a3 a4 a5 a6 a7 a8 a9 b1 b2 b3) as [[bf ot] [l|]] end;
      destruct (w_back (s_world s)); cbn [negb]; auto.
    + match goal with |- context [ctr_serve ?a1 ?a2 ?a3 ?a4 ?a5 ?a6 ?a7 ?a8 ?a9 ?b1] =>
        destruct (ctr_serve a1 a2 a3 a4 a5 a6 a7 a8 a9 b1) as [bf [[z l]|]] end;
      destruct (w_back (s_world s)); cbn [negb]; auto.
  - unfold ecb_step. destruct (s_dma s); [unfold ecb_call_dma|unfold ecb_call];
      (destruct (length (s_msg s) mod BLOCK =? 0) eqn:M; cbn [negb]; [|auto]; apply Nat.eqb_eq in M;
       destruct (length (s_msg s) =? 0) eqn:Z; [auto|]; apply Nat.eqb_neq in Z;
       try rewrite (BL M Z);
       match goal with |- context [fits DL ?n] =>
         destruct (fits DL n) eqn:F; cbn [negb]; [|auto];
         rewrite (FIT n) by (try exact F; unfold HDR, ECB_REQ, ECB_DREQ, BLOCK in *; lia) end;
       destruct (w_sent (s_world s)); cbn [negb]; [|auto]).
    + match goal with |- context [ecb_serve_dma ?a1 ?a2 ?a3 ?a4 ?a5 ?a6 ?a7 ?a8 ?a9 ?b1 ?b2] =>
        destruct (ecb_serve_dma a1 a2 a3 a4 a5 a6 a7 a8 a9 b1 b2) as [[bf ot] [[]|]] end;
      destruct (w_back (s_world s)); cbn [negb]; auto.
    + match goal with |- context [ecb_serve ?a1 ?a2 ?a3 ?a4 ?a5 ?a6 ?a7 ?a8 ?a9] =>
        destruct (ecb_serve a1 a2 a3 a4 a5 a6 a7 a8 a9) as [bf [z|]] end;
      destruct (w_back (s_world s)); cbn [negb]; auto.
  - unfold cbc_step. destruct (s_dma s); [unfold cbc_call_dma|unfold cbc_call];
      (destruct (length (s_msg s) mod BLOCK =? 0) eqn:M; cbn [negb]; [|auto]; apply Nat.eqb_eq in M;
       destruct (length (s_msg s) =? 0) eqn:Z; [auto|]; apply Nat.eqb_neq in Z;
       try rewrite (BL M Z);
       match goal with |- context [fits DL ?n] =>
         destruct (fits DL n) eqn:F; cbn [negb]; [|auto];
         rewrite (FIT n) by (try exact F; unfold HDR, CBC_REQ, CBC_DREQ, BLOCK in *; lia) end;
       destruct (w_sent (s_world s)); cbn [negb]; [|auto]).
    + match goal with |- context [cbc_serve_dma ?a1 ?a2 ?a3 ?a4 ?a5 ?a6 ?a7 ?a8 ?a9 ?b1 ?b2] =>
        destruct (cbc_serve_dma a1 a2 a3 a4 a5 a6 a7 a8 a9 b1 b2) as [[bf ot] [[]|]] end;
      destruct (w_back (s_world s)); cbn [negb]; auto.
    + match goal with |- context [cbc_serve ?a1 ?a2 ?a3 ?a4 ?a5 ?a6 ?a7 ?a8 ?a9] =>
        destruct (cbc_serve a1 a2 a3 a4 a5 a6 a7 a8 a9) as [bf [z|]] end;
      destruct (w_back (s_world s)); cbn [negb]; auto.
Qed.

End C63.

(* --- the two ways a call can fail to return properly --- *)

Lemma mib_blocks : forall n, n = 16 * N.to_nat 65536 ->
  n mod BLOCK = 0 /\ n <> 0 /\ blocks16 n = 0%N.
Proof.
  intros n ->. set (b := N.to_nat 65536). assert (B : N.of_nat b = 65536%N) by apply N2Nat.id.
  clearbody b. split; [|split].
  - unfold BLOCK. rewrite Nat.mul_comm. apply Nat.mod_mul. discriminate.
  - intros Z. assert (b = 0) by lia. subst b. discriminate B.
  - unfold blocks16. replace (N.of_nat (16 * b)) with (65536 * 16)%N by lia. reflexivity.
Qed.

(* An ECB or CBC call on exactly 1 MiB: the number of blocks is kept in 16 bits
   and is 0, so nothing is sent, and the call waits for ever for the answer,
   whatever the server is and whatever its buffers hold. *)
Theorem C63_one_MiB_hangs_refuted : forall E D DL w a enc out,
  exists msg, (N.of_nat (length msg) = 1048576)%N /\
    snd (ecb_call E D DL w a enc msg out) = Hang /\
    snd (cbc_call E D DL w a enc msg out) = Hang.
Proof.
  intros E D DL w a enc out. exists (repeat 0%N (16 * N.to_nat 65536)).
  destruct (mib_blocks (length (repeat 0%N (16 * N.to_nat 65536))) (repeat_length _ _))
    as (M & Z & B).
  split.
  - rewrite repeat_length. set (b := N.to_nat 65536).
    assert (Q : N.of_nat b = 65536%N) by apply N2Nat.id. clearbody b. lia.
  - unfold ecb_call, cbc_call. rewrite M, B.
    change (0 =? 0) with true. cbn [negb].
    apply Nat.eqb_neq in Z. rewrite Z. split; reflexivity.
Qed.

(* A CTR call of nearly 4 GiB: the length of the request is kept in 32 bits and
   wraps to 0, the check against the buffer's size passes, and the client writes
   past its buffer. *)
Theorem C63_four_GiB_overruns_refuted : forall E X DL w a enc out,
  (N.of_nat DL < 4294967296)%N -> length (a_key a) <= 32 ->
  exists msg, (N.of_nat (length msg) < 4294967296)%N /\
    snd (ctr_call E X DL w a enc msg out) = Overrun.
Proof.
  intros E X DL w a enc out S K.
  exists (repeat 0%N (N.to_nat (4294967296 - 64 - N.of_nat (length (a_key a))))).
  assert (L : N.of_nat (length (repeat 0%N (N.to_nat (4294967296 - 64 - N.of_nat (length (a_key a)))))) =
              (4294967296 - 64 - N.of_nat (length (a_key a)))%N).
  { rewrite repeat_length. apply N2Nat.id. }
  revert L. generalize (repeat 0%N (N.to_nat (4294967296 - 64 - N.of_nat (length (a_key a))))).
  intros msg L. split; [lia|].
  unfold ctr_call. unfold HDR, CTR_REQ, BLOCK.
  assert (T : N.of_nat (12 + 20 + length msg + length (a_key a) + 16 + 16) = 4294967296%N) by lia.
  revert T. generalize (12 + 20 + length msg + length (a_key a) + 16 + 16). intros t T.
  unfold fits, w32. rewrite T.
  change ((4294967296 mod 4294967296)%N) with 0%N.
  rewrite (proj2 (N.leb_le 0 (N.of_nat DL))) by lia. cbn [negb].
  rewrite (proj2 (Nat.ltb_lt DL t)) by lia. reflexivity.
Qed.

Module AesToy.

(* Stand-ins: a byte-wise cipher, its inverse, and what the forward function does
   with the other key schedule. *)
Definition E (k b : list N) : list N := map (fun x => (x + hd 0 k) mod 256)%N b.
Definition D (k b : list N) : list N := map (fun x => (x + (256 - hd 0 k)) mod 256)%N b.
Definition X (k b : list N) : list N := map (fun x => (x + 2 * hd 0 k + 1) mod 256)%N b.
Definition genc (k iv aad p : list N) (n : nat) : option (list N * list N) :=
  if n =? 16 then Some (map (fun x => N.lxor x (hd 0 k))%N p,
                        repeat ((fold_left N.add (k ++ iv ++ aad ++ p) 0) mod 256)%N 16)
  else None.
Definition gdec (k iv aad c t : list N) : option (list N) :=
  let p := map (fun x => N.lxor x (hd 0 k))%N c in
  match genc k iv aad p (length t) with
  | Some (_, t') => if list_eq_dec N.eq_dec t t' then Some p else None
  | None => None
  end.
Definition DL := 400.

Lemma E_ok : is_cipher E. Proof. intros k b L. unfold E. rewrite map_length. exact L. Qed.
Lemma D_ok : is_cipher D. Proof. intros k b L. unfold D. rewrite map_length. exact L. Qed.
Lemma X_ok : is_cipher X. Proof. intros k b L. unfold X. rewrite map_length. exact L. Qed.
Lemma gcm_ok : is_gcm genc gdec.
Proof.
  split.
  - intros k iv aad p n c t. unfold genc. destruct (n =? 16) eqn:Q; [|discriminate].
    apply Nat.eqb_eq in Q. intros I. injection I as <- <-.
    rewrite map_length, Q. split; [reflexivity|]. split; [reflexivity|lia].
  - intros k iv aad c t p. unfold gdec.
    destruct (genc k iv aad _ _) as [[c' t']|]; [|discriminate].
    destruct (list_eq_dec N.eq_dec t t'); [|discriminate]. intros I. injection I as <-.
    apply map_length.
Qed.

Definition key : list N := map N.of_nat (seq 7 16).
Definition iv : list N := repeat 0%N 14 ++ [255; 254]%N.
Definition store (enc : bool) (id : N) := if (id =? 5)%N then Some key else None.
Definition up : world := mkWorld store true true true (repeat 9%N DL) true true true true.
Definition down : world := mkWorld store true true false (repeat 9%N DL) true true true true.
Definition obj : aes := mkAes [] 5 iv (repeat 0%N 16) 0.
Definition blank : list N := repeat 0%N 48.

Definition part (i n : nat) : list N := map N.of_nat (seq i n).
Definition cuts : list step :=
  [mkStep false up (part 1 5) blank; mkStep false down (part 6 7) blank;
   mkStep true up (part 6 40) blank; mkStep false up (part 46 3) blank].

Definition ok_steps (a : aes) (enc : bool) (l : list step) : Prop :=
  Forall (step_ok DL a enc key) l.

Ltac steps := repeat (apply Forall_cons; [split; [intros k' Q; vm_compute in Q; injection Q as <-; reflexivity|
                        split; [reflexivity|vm_compute; repeat constructor]]|]); apply Forall_nil.

(* Four calls, one of them lost, cut at 5 and 45 bytes, two paths, and a counter
   that carries: the hypotheses hold and three calls are answered. *)
Example C63_runs :
  fresh obj iv /\ ok_steps obj true cuts /\
  length (snd (stream_of (ctr_step E X DL) obj true cuts)) = 3 /\
  concat (map snd (snd (stream_of (ctr_step E X DL) obj true cuts))) = CTR (E key) iv (part 1 48).
Proof.
  split; [|split; [|split]].
  - split; [reflexivity|]. split; [reflexivity|]. split; [|split; reflexivity].
    vm_compute. repeat constructor.
  - unfold ok_steps, cuts. steps.
  - vm_compute. reflexivity.
  - vm_compute. reflexivity.
Qed.

Definition cbc_cuts : list step :=
  [mkStep true up (part 1 32) blank; mkStep false down (part 33 16) blank;
   mkStep false up (part 33 16) blank].
Definition cbc_back : list step :=
  [mkStep false up (firstn 16 (CBC_enc (E key) iv (part 1 48))) blank;
   mkStep true up (skipn 16 (CBC_enc (E key) iv (part 1 48))) blank].

Example C63_cbc_runs :
  ok_steps obj true cbc_cuts /\ ok_steps obj false cbc_back /\
  concat (map snd (snd (stream_of (cbc_step E D DL) obj true cbc_cuts)))
    = concat (map fst (snd (stream_of (cbc_step E D DL) obj false cbc_back))) /\
  concat (map snd (snd (stream_of (cbc_step E D DL) obj false cbc_back))) = part 1 48 /\
  concat (map snd (snd (stream_of (ecb_step E D DL) obj true cbc_cuts))) = ECB (E key) (part 1 48).
Proof.
  split; [unfold ok_steps, cbc_cuts; steps|].
  split; [unfold ok_steps, cbc_back; steps|].
  vm_compute. repeat split; reflexivity.
Qed.

Example C63_gcm_runs :
  gcm_call genc gdec DL up obj true (part 1 10) [1;2;3]%N [4;5]%N (repeat 0%N 16) (repeat 0%N 10)
    = (map (fun x => N.lxor x 7) (part 1 10), repeat 46%N 16, Done)
  /\ gcm_call genc gdec DL up obj false (map (fun x => N.lxor x 7) (part 1 10)) [1;2;3]%N [4;5]%N
       (repeat 46%N 16) (repeat 0%N 10) = (part 1 10, repeat 46%N 16, Done)
  /\ gcm_call_dma genc gdec DL up obj false (map (fun x => N.lxor x 7) (part 1 10)) [1;2;3]%N [4;5]%N
       (repeat 7%N 16) (repeat 0%N 10) = (repeat 0%N 10, repeat 7%N 16, Err).
Proof. vm_compute. repeat split; reflexivity. Qed.

Example C63_served_runs :
  sound obj /\ good up /\ named obj true up = Some key /\ length key = 16 /\
  64 + length (part 1 48) + length (a_key obj) <= DL.
Proof. vm_compute. repeat split; try reflexivity; repeat constructor. Qed.

(* Encrypting with enc = 1 and then "decrypting" with enc = 0 need not give the
   message back: in CTR mode the second call runs the forward function under the
   schedule loaded for decryption. *)
Theorem C63_ctr_enc0_undoes_refuted :
  exists c p, c = concat (map snd (snd (stream_of (ctr_step E X DL) obj true
                                          [mkStep false up (part 1 20) blank]))) /\
    stream_of (ctr_step E X DL) obj false [mkStep false up c blank]
      = (fst (stream_of (ctr_step E X DL) obj false [mkStep false up c blank]), [(c, p)]) /\
    length p = 20 /\ p <> part 1 20.
Proof.
  eexists. eexists. split; [reflexivity|]. vm_compute.
  split; [reflexivity|]. split; [reflexivity|discriminate].
Qed.

(* A failed DMA call may have written the output. *)
Theorem C63_dma_failure_keeps_output_refuted :
  snd (ctr_step E X DL obj true (mkStep true down (part 1 16) blank)) = Err /\
  snd (fst (ctr_step E X DL obj true (mkStep true down (part 1 16) blank))) <> blank.
Proof. vm_compute. split; [reflexivity|discriminate]. Qed.

End AesToy.

Print Assumptions C63_ctr_stream.
Print Assumptions C63_ctr_enc0_stream.
Print Assumptions C63_ctr_roundtrip.
Print Assumptions C63_ecb_stream.
Print Assumptions C63_cbc_encrypt_stream.
Print Assumptions C63_cbc_decrypt_stream.
Print Assumptions C63_cbc_roundtrip.
Print Assumptions C63_failed_call_changes_nothing.
Print Assumptions C63_gcm.
Print Assumptions C63_gcm_dma.
Print Assumptions C63_ctr_served.
Print Assumptions C63_ecb_served.
Print Assumptions C63_cbc_served.
Print Assumptions C63_gcm_served.
Print Assumptions C63_gcm_dma_served.
Print Assumptions C63_every_call_returns_partial.
Print Assumptions C63_one_MiB_hangs_refuted.
Print Assumptions C63_four_GiB_overruns_refuted.
Print Assumptions AesToy.C63_ctr_enc0_undoes_refuted.
Print Assumptions AesToy.C63_dma_failure_keeps_output_refuted.
