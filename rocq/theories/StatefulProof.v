(** Proofs about the slots of stateful signature keys. *)
From Verif Require Import Base BaseLemmas NvmReqModel StatefulModel StatefulSpec.
Local Open Scope N_scope.

Lemma nlen_app a b : nlen (a ++ b) = nlen a + nlen b.
Proof. unfold nlen. rewrite app_length. lia. Qed.
Lemma nlen_nat l : N.to_nat (nlen l) = length l.
Proof. unfold nlen. lia. Qed.

Lemma mread_app off n a d t : nlen a = off -> nlen d = n -> mread off n (a ++ d ++ t) = Some d.
Proof.
  intros <- <-. unfold mread. rewrite !nlen_app. destruct (N.leb_spec (nlen a + nlen d) (nlen a + (nlen d + nlen t))); [|lia].
  f_equal. rewrite !nlen_nat, skipn_app_len by reflexivity. apply firstn_app_len. reflexivity.
Qed.
Lemma mread_first n d t : nlen d = n -> mread 0 n (d ++ t) = Some d.
Proof. intros H. apply (mread_app 0 n [] d t); auto. Qed.
Lemma mread_some off n buf : off + n <= nlen buf -> exists d, mread off n buf = Some d /\ nlen d = n.
Proof.
  intros L. unfold mread. destruct (N.leb_spec (off + n) (nlen buf)); [|lia]. eexists. split; [reflexivity|].
  unfold nlen in *. rewrite firstn_length, skipn_length. lia.
Qed.
Lemma mwrite_app off d a b : nlen a = off -> nlen d <= nlen b -> mwrite off d (a ++ b) = Some (a ++ d ++ skipn (length d) b).
Proof.
  intros <- L. unfold mwrite. rewrite nlen_app. destruct (N.leb_spec (nlen a + nlen d) (nlen a + nlen b)); [|lia].
  rewrite nlen_nat, firstn_app_len by reflexivity. do 3 f_equal. rewrite skipn_app.
  rewrite skipn_all2 by lia. cbn [app]. f_equal. lia.
Qed.
Lemma mwrite_first d b : nlen d <= nlen b -> mwrite 0 d b = Some (d ++ skipn (length d) b).
Proof. intros H. apply (mwrite_app 0 d [] b); auto. Qed.
Lemma mwrite_same off d d0 a t : nlen a = off -> length d = length d0 -> mwrite off d (a ++ d0 ++ t) = Some (a ++ d ++ t).
Proof.
  intros A L. rewrite mwrite_app; auto. 2:{ rewrite nlen_app. unfold nlen. lia. }
  rewrite skipn_app_len by auto. reflexivity.
Qed.
Lemma mwrite_some off d buf : off + nlen d <= nlen buf -> exists b, mwrite off d buf = Some b /\ nlen b = nlen buf.
Proof.
  intros L. unfold mwrite. destruct (N.leb_spec (off + nlen d) (nlen buf)); [|lia]. eexists. split; [reflexivity|].
  unfold nlen in *. rewrite !app_length, firstn_length, skipn_length. lia.
Qed.

(** * Headers *)
Lemma two_enc n : N.of_nat n < 65536 -> le_enc 2 (N.of_nat n) = two n.
Proof. intros L. unfold two. cbn [le_enc]. f_equal. f_equal. lia. Qed.
Lemma two_dec n : N.of_nat n < 65536 -> le_dec (two n) = N.of_nat n.
Proof. intros L. unfold two. cbn [le_dec]. lia. Qed.
Lemma magic_dec kd : le_dec (magic_bytes kd) = magic_of kd.
Proof. destruct kd; reflexivity. Qed.
Lemma magic_enc kd : le_enc 4 (magic_of kd) = magic_bytes kd.
Proof. destruct kd; reflexivity. Qed.
Lemma par_named kd par : par_field kd par = named kd par.
Proof. reflexivity. Qed.

Definition head (kd : kind) (par pub priv : list N) : list N :=
  magic_bytes kd ++ two (length pub) ++ two (length priv) ++ two (length (named kd par)) ++ [0; 0].
Lemma head_length kd par pub priv : nlen (head kd par pub priv) = 12.
Proof. destruct kd; reflexivity. Qed.
Lemma layout_head kd par pub priv : layout kd par pub priv = head kd par pub priv ++ named kd par ++ pub ++ priv.
Proof. unfold layout, head. rewrite <- !app_assoc. reflexivity. Qed.
Lemma layout_length kd par pub priv : nlen (layout kd par pub priv) = 12 + nlen (named kd par) + nlen pub + nlen priv.
Proof. rewrite layout_head, !nlen_app, head_length. lia. Qed.
Lemma field_app o n a d t : length a = o -> length d = n -> field o n (a ++ d ++ t) = le_dec d.
Proof. intros A D. unfold field. rewrite skipn_app_len, firstn_app_len; auto. Qed.
Lemma head_fields kd par pub priv : nlen pub < 65536 -> nlen priv < 65536 -> nlen (named kd par) < 65536 ->
  let h := head kd par pub priv in
  field 0 4 h = magic_of kd /\ field 4 2 h = nlen pub /\ field 6 2 h = nlen priv /\ field 8 2 h = nlen (named kd par) /\ field 10 2 h = 0.
Proof.
  intros A B C h. subst h. unfold head. rewrite <- magic_dec. unfold nlen in *.
  assert (H : forall n, length (two n) = 2%nat) by reflexivity. assert (H0 : length (magic_bytes kd) = 4%nat) by (destruct kd; reflexivity).
  split; [apply (field_app 0 4 []); auto|].
  split; [rewrite (field_app 4 2 (magic_bytes kd) (two (length pub))), two_dec; auto|].
  split; [rewrite app_assoc; rewrite (field_app 6 2 (magic_bytes kd ++ two (length pub)) (two (length priv))), two_dec; auto; rewrite app_length, H, H0; auto|].
  split; [rewrite app_assoc, (app_assoc (_ ++ _)); rewrite (field_app 8 2 ((magic_bytes kd ++ two (length pub)) ++ two (length priv)) (two (length (named kd par)))), two_dec; auto; rewrite !app_length, !H, H0; auto|].
  rewrite !app_assoc, <- (app_nil_r (_ ++ [0; 0])), <- app_assoc.
  rewrite (field_app 10 2 (((magic_bytes kd ++ two (length pub)) ++ two (length priv)) ++ two (length (named kd par))) [0; 0]); auto. rewrite !app_length, !H, H0; auto.
Qed.
Lemma head_enc kd par pub priv : nlen pub < 65536 -> nlen priv < 65536 -> nlen (named kd par) < 65536 ->
  enc_header (magic_of kd) (nlen pub) (nlen priv) (nlen (named kd par)) = head kd par pub priv.
Proof. intros A B C. unfold enc_header, head, nlen in *. rewrite magic_enc, !two_enc by auto. reflexivity. Qed.

(** The name of an XMSS set, read up to a zero known to be there. *)
Fixpoint upto (l : list N) : list N :=
  match l with [] => [] | b :: r => if b =? 0 then [] else b :: upto r end.
Lemma cstr_upto a : forall t, In 0 a -> cstr (a ++ t) = Some (upto a).
Proof.
  induction a as [|b a IH]; intros t H; [destruct H|]. cbn [app cstr upto]. destruct (N.eqb_spec b 0); [reflexivity|].
  rewrite IH; [reflexivity|]. destruct H as [H|H]; [congruence|auto].
Qed.
Lemma cstr_plain s : Forall (fun b => b <> 0) s -> upto (s ++ [0]) = s.
Proof.
  induction s as [|b s IH]; intros F; cbn [app upto]; [reflexivity|]. inversion F; subst.
  destruct (N.eqb_spec b 0); [contradiction|]. rewrite IH; auto.
Qed.
Lemma upto_clean s : Forall (fun b => b <> 0) (upto s).
Proof. induction s as [|b s IH]; cbn [upto]; [constructor|]. destruct (N.eqb_spec b 0); constructor; auto. Qed.
Lemma cstr_mread buf n e : n <> 0 -> mread (HDR + (n - 1)) 1 buf = Some e -> nth 0 e 1 = 0 ->
  acc (cstr (skipn (N.to_nat HDR) buf)) = bind (acc (mread HDR n buf)) (fun s => Val (upto s)).
Proof.
  intros NZ R Z. unfold mread in *. destruct (N.leb_spec (HDR + (n - 1) + 1) (nlen buf)); [|discriminate]. destruct (N.leb_spec (HDR + n) (nlen buf)); [|lia].
  injection R as <-. cbn [acc bind]. set (b := skipn (N.to_nat HDR) buf).
  assert (K : skipn (N.to_nat (HDR + (n - 1))) buf = skipn (N.to_nat (n - 1)) b).
  { subst b. rewrite N2Nat.inj_add. generalize (N.to_nat HDR) (N.to_nat (n - 1)). clear. intros a c. revert buf. induction a; intros [|x l]; cbn [plus skipn]; auto using skipn_nil. }
  rewrite K in Z. rewrite <- (firstn_skipn (N.to_nat n) b) at 1. rewrite cstr_upto; [reflexivity|].
  assert (L : (N.to_nat n <= length b)%nat) by (subst b; rewrite skipn_length; unfold nlen in *; lia).
  change (N.to_nat 1) with 1%nat in Z. replace 0 with (nth (N.to_nat (n - 1)) (firstn (N.to_nat n) b) 0).
  { apply nth_In. rewrite firstn_length. lia. }
  rewrite <- (firstn_skipn (N.to_nat (n - 1)) (firstn (N.to_nat n) b)). rewrite app_nth2 by (rewrite !firstn_length; lia).
  rewrite !firstn_length. replace (_ - _)%nat with 0%nat by lia. rewrite skipn_firstn_comm. replace (N.to_nat n - N.to_nat (n - 1))%nat with 1%nat by lia.
  destruct (skipn (N.to_nat (n - 1)) b) eqn:Q; [|cbn in *; auto].
  apply (f_equal (@length N)) in Q. rewrite skipn_length in Q. cbn [length] in Q. lia.
Qed.

Section Lib.
Variable tab : kind -> list N -> option (N * N).
Variable lib_sign : kind -> list N -> list N -> list N -> list N -> option (list N * list N).
Variable lib_left : kind -> list N -> list N -> N.
Variable cap : N.
Notation proper := (proper tab cap).
Notation deserialize := (deserialize tab).
(** The same with the name read from its field only. *)
Definition deserialize0 (kd : kind) (buf : list N) (size : N) : out keyobj :=
  let! l := dec_header (magic_of kd) buf size in
  let! par :=
    match kd with
    | Lms => if negb (l_par l =? 3) then Fail BADARGS else acc (mread HDR 3 buf)
    | Xmss =>
        if l_par l =? 0 then Fail BADARGS else
        let! e := acc (mread (HDR + (l_par l - 1)) 1 buf) in
        if negb (nth 0 e 1 =? 0) then Fail BADARGS else
        let! s := acc (mread HDR (l_par l) buf) in
        Val (upto s)
    end in
  match tab kd par with
  | None => Fail BAD_FUNC_ARG
  | Some (pl, vl) =>
      if negb (pl =? l_pub l) then Fail BADARGS else
      let want := match kd with Lms => vl mod 65536 | Xmss => vl end in
      if negb (l_priv l =? 0) && negb (l_priv l =? want) then Fail BADARGS else
      let! pub := acc (mread (HDR + l_par l) (l_pub l) buf) in
      match kd with
      | Lms => if 0 <? l_priv l
               then let! v := acc (mread (HDR + l_par l + l_pub l) (l_priv l) buf) in
                    Val (mkKey par pub (Some v))
               else Val (mkKey par pub None)
      | Xmss => Val (mkKey par pub None)
      end
  end.
Lemma deserialize_alt kd buf size : deserialize kd buf size = deserialize0 kd buf size.
Proof.
  unfold StatefulModel.deserialize, deserialize0. destruct (dec_header _ _ _) as [l|rc|]; cbn [bind]; auto. destruct kd; auto.
  destruct (N.eqb_spec (l_par l) 0) as [|NZ]; auto. destruct (mread (HDR + (l_par l - 1)) 1 buf) as [e|] eqn:R; cbn [acc bind]; auto.
  destruct (N.eqb_spec (nth 0 e 1) 0) as [Z|]; cbn [negb]; auto. rewrite (cstr_mread _ _ _ NZ R Z). reflexivity.
Qed.
Notation sign := (sign tab lib_sign cap).
Notation load_priv := (load_priv tab).
Notation sigs_left := (sigs_left tab lib_left).
Notation follows := (follows lib_sign).

Lemma proper_lens kd par pub priv : proper kd par pub priv ->
  nlen pub < 65536 /\ nlen priv < 65536 /\ nlen (named kd par) < 65536 /\ nlen (layout kd par pub priv) < 65536 /\ 0 < nlen priv.
Proof.
  intros (_ & NE & _ & L & C). change (N.of_nat (length (layout kd par pub priv))) with (nlen (layout kd par pub priv)) in L.
  pose proof (layout_length kd par pub priv). assert (0 < nlen priv) by (destruct priv; [contradiction|unfold nlen; cbn [length]; lia]). lia.
Qed.
Lemma proper_next kd par pub v v' : proper kd par pub v -> length v' = length v -> proper kd par pub v'.
Proof.
  intros (T & NE & K & L & C) E. split; [rewrite E; auto|]. split; [destruct v, v'; cbn in E; congruence|]. split; auto. split; auto.
  pose proof (layout_length kd par pub v) as A. pose proof (layout_length kd par pub v') as B. unfold nlen in *. lia.
Qed.

Lemma dec_layout kd par pub priv tail : proper kd par pub priv ->
  dec_header (magic_of kd) (layout kd par pub priv ++ tail) (nlen (layout kd par pub priv)) =
  Val (mkLens (nlen pub) (nlen priv) (nlen (named kd par))).
Proof.
  intros P. destruct (proper_lens _ _ _ _ P) as (A & B & C & D & E). unfold dec_header. rewrite layout_length. unfold HDR.
  destruct (N.ltb_spec (12 + nlen (named kd par) + nlen pub + nlen priv) 12); [lia|].
  rewrite layout_head, <- app_assoc. rewrite (mread_first 12 (head kd par pub priv)) by apply head_length. cbn [acc bind].
  destruct (head_fields kd par pub priv A B C) as (F1 & F2 & F3 & F4 & F5). rewrite F1, F2, F3, F4, F5, !N.eqb_refl. cbn [negb orb].
  destruct (N.ltb_spec (12 + nlen (named kd par) + nlen pub + nlen priv) (12 + nlen (named kd par) + nlen pub + nlen priv)); [lia|]. reflexivity.
Qed.

Definition priv_in (kd : kind) (priv : list N) : option (list N) := match kd with Lms => Some priv | Xmss => None end.
Lemma deserialize_layout kd par pub priv tail : proper kd par pub priv ->
  deserialize kd (layout kd par pub priv ++ tail) (nlen (layout kd par pub priv)) = Val (mkKey par pub (priv_in kd priv)).
Proof.
  intros P. destruct (proper_lens _ _ _ _ P) as (A & B & C & D & E). rewrite ?deserialize_alt; unfold deserialize0. rewrite dec_layout by auto. cbn [bind l_par l_pub l_priv].
  destruct P as (T & NE & K & L & CP). change (N.of_nat (length pub)) with (nlen pub) in T. change (N.of_nat (length priv)) with (nlen priv) in T.
  set (buf := layout kd par pub priv ++ tail). assert (BE : buf = head kd par pub priv ++ named kd par ++ pub ++ priv ++ tail).
  { subst buf. rewrite layout_head, <- !app_assoc. reflexivity. }
  assert (RP : mread (HDR + nlen (named kd par)) (nlen pub) buf = Some pub).
  { rewrite BE, app_assoc. apply mread_app; auto. rewrite nlen_app, head_length. reflexivity. }
  assert (RV : mread (HDR + nlen (named kd par) + nlen pub) (nlen priv) buf = Some priv).
  { rewrite BE, (app_assoc (head _ _ _ _)), (app_assoc (_ ++ _)). apply mread_app; auto. rewrite !nlen_app, head_length. reflexivity. }
  assert (RN : mread HDR (nlen (named kd par)) buf = Some (named kd par)).
  { rewrite BE. apply mread_app; auto using head_length. }
  destruct kd; cbn [named priv_in] in *.
  - assert (P3 : nlen par = 3) by (unfold nlen; lia). rewrite P3 in *. rewrite N.eqb_refl. cbn [negb]. rewrite RN. cbn [acc bind]. rewrite T.
    rewrite N.eqb_refl. cbn [negb]. rewrite N.mod_small by auto. rewrite N.eqb_refl. cbn [negb]. rewrite Bool.andb_false_r.
    rewrite RP. cbn [acc bind]. destruct (N.ltb_spec 0 (nlen priv)); [|lia]. rewrite RV. reflexivity.
  - assert (NP : nlen (par ++ [0]) = nlen par + 1) by (rewrite nlen_app; reflexivity).
    destruct (N.eqb_spec (nlen (par ++ [0])) 0); [lia|].
    replace (mread (HDR + (nlen (par ++ [0]) - 1)) 1 buf) with (Some [0]).
    2:{ symmetry. rewrite BE, <- (app_assoc par), app_assoc. apply mread_app; auto. rewrite nlen_app, head_length. unfold HDR. lia. }
    cbn [acc bind nth]. rewrite N.eqb_refl. cbn [negb]. rewrite RN. cbn [acc bind]. rewrite cstr_plain by auto. rewrite T.
    rewrite !N.eqb_refl. cbn [negb]. rewrite Bool.andb_false_r. rewrite RP. reflexivity.
Qed.
Lemma priv_off_layout kd par pub priv tail : proper kd par pub priv ->
  priv_off (layout kd par pub priv ++ tail) = Val (12 + nlen (named kd par) + nlen pub).
Proof.
  intros P. destruct (proper_lens _ _ _ _ P) as (A & B & C & D & E). unfold priv_off. rewrite layout_head, <- app_assoc.
  rewrite (mread_first HDR (head kd par pub priv)) by apply head_length. cbn [acc bind].
  destruct (head_fields kd par pub priv A B C) as (F1 & F2 & F3 & F4 & F5). rewrite F2, F4. rewrite layout_length in D. rewrite N.mod_small by (unfold HDR; lia). reflexivity.
Qed.
Lemma load_layout kd par pub priv sl : proper kd par pub priv -> holds sl (layout kd par pub priv) ->
  load_priv kd sl = Val (mkKey par pub (priv_in kd priv), 12 + nlen (named kd par) + nlen pub, priv).
Proof.
  intros P (L & tail & B). change (N.of_nat (length (layout kd par pub priv))) with (nlen (layout kd par pub priv)) in L.
  unfold StatefulModel.load_priv. rewrite B, L, deserialize_layout, priv_off_layout by auto. cbn [bind k_par].
  destruct (proper_lens _ _ _ _ P) as (X1 & X2 & X3 & X4 & X5). destruct P as (T & _). rewrite T. unfold read_cb.
  change (N.of_nat (length priv)) with (nlen priv). rewrite L, layout_length.
  destruct (N.ltb_spec (12 + nlen (named kd par) + nlen pub + nlen priv) (12 + nlen (named kd par) + nlen pub + nlen priv)); [lia|].
  rewrite B, layout_head, <- !app_assoc, (app_assoc (head _ _ _ _)), (app_assoc (_ ++ _)).
  rewrite mread_app; [reflexivity| |reflexivity]. rewrite !nlen_app, head_length. reflexivity.
Qed.

Lemma write_layout kd par pub priv priv' sl nv stored : proper kd par pub priv -> holds sl (layout kd par pub priv) -> length priv' = length priv ->
  exists sl', write_cb cap sl (12 + nlen (named kd par) + nlen pub) priv' nv stored =
    Val (sl', if is_ok nv then Some (layout kd par pub priv') else stored, is_ok nv) /\ holds sl' (layout kd par pub priv') /\
    length (s_buf sl') = length (s_buf sl).
Proof.
  intros P (L & tail & B) E. change (N.of_nat (length (layout kd par pub priv))) with (nlen (layout kd par pub priv)) in L.
  destruct (proper_lens _ _ _ _ P) as (X1 & X2 & X3 & X4 & X5). pose proof (proj1 (proj2 (proj2 (proj2 P)))) as LC.
  change (N.of_nat (length (layout kd par pub priv))) with (nlen (layout kd par pub priv)) in LC. rewrite layout_length in LC, X4.
  assert (NE : nlen priv' = nlen priv) by (unfold nlen; lia).
  unfold write_cb. rewrite NE. destruct (N.ltb_spec cap (12 + nlen (named kd par) + nlen pub + nlen priv)); [lia|].
  rewrite B, layout_head, <- !app_assoc, (app_assoc (head _ _ _ _)), (app_assoc (_ ++ _)).
  rewrite mwrite_same; [|rewrite !nlen_app, head_length; reflexivity|auto]. cbn [acc bind].
  assert (H2 : forall r, mwrite 6 (le_enc 2 (nlen priv mod 65536)) (head kd par pub priv ++ r) = Some (head kd par pub priv' ++ r)).
  { intros r. rewrite N.mod_small by auto. unfold head, nlen. rewrite two_enc by (unfold nlen in X2; lia). rewrite <- E.
    rewrite <- !app_assoc, (app_assoc (magic_bytes kd)). apply mwrite_same; [destruct kd; reflexivity|reflexivity]. }
  rewrite <- !app_assoc, H2. cbn [acc bind].
  assert (LE : head kd par pub priv' ++ named kd par ++ pub ++ priv' ++ tail = layout kd par pub priv' ++ tail).
  { rewrite layout_head, <- !app_assoc. reflexivity. }
  rewrite LE. rewrite (N.mod_small (12 + _ + _ + _)) by lia.
  rewrite (mread_first _ (layout kd par pub priv')) by (rewrite layout_length; lia). cbn [acc bind].
  eexists. split; [reflexivity|]. split.
  - split; [cbn [s_len]; change (N.of_nat (length (layout kd par pub priv'))) with (nlen (layout kd par pub priv')); rewrite layout_length; lia|].
    exists tail. reflexivity.
  - cbn [s_buf]. pose proof (layout_length kd par pub priv). pose proof (layout_length kd par pub priv'). unfold nlen in *.
    rewrite layout_head in *. rewrite !app_length in *. lia.
Qed.

Lemma sign_layout kd par pub priv sl dma nv msg stored : lib_sized lib_sign -> proper kd par pub priv -> holds sl (layout kd par pub priv) ->
  exists r, sign kd dma nv msg sl stored = Val r /\
    ((t_sig r = None /\ t_rc r <> OK /\ t_slot r = sl /\ t_nvm r = stored /\ (dma <> OK \/ lib_sign kd par pub priv msg = None)) \/
     exists sg priv', lib_sign kd par pub priv msg = Some (sg, priv') /\ dma = OK /\ holds (t_slot r) (layout kd par pub priv') /\
       length (s_buf (t_slot r)) = length (s_buf sl) /\
       (if Z.eqb nv OK then t_rc r = OK /\ t_sig r = Some sg /\ t_nvm r = Some (layout kd par pub priv')
        else t_rc r <> OK /\ t_sig r = None /\ t_nvm r = stored)).
Proof.
  intros LS P H. unfold StatefulModel.sign. rewrite (load_layout _ _ _ _ _ P H). cbn [k_par k_pub]. unfold is_ok.
  destruct (Z.eqb_spec dma OK) as [->|D]; cbn [negb].
  2:{ eexists. split; [reflexivity|]. left. cbn [t_sig t_rc t_slot t_nvm]. auto 10. }
  destruct (lib_sign kd par pub priv msg) as [[sg priv']|] eqn:S.
  2:{ eexists. split; [reflexivity|]. left. cbn [t_sig t_rc t_slot t_nvm]. split; auto. split; [discriminate|auto 10]. }
  destruct (write_layout kd par pub priv priv' sl nv stored P H (LS _ _ _ _ _ _ _ S)) as (sl' & W & HO & LN). rewrite W. cbn [bind].
  eexists. split; [reflexivity|]. right. exists sg, priv'. split; auto. split; auto. unfold is_ok. destruct (Z.eqb nv OK); cbn [t_sig t_rc t_slot t_nvm].
  - split; auto.
  - split; auto. split; auto. split; [discriminate|auto].
Qed.
Lemma left_layout kd par pub priv sl : proper kd par pub priv -> holds sl (layout kd par pub priv) ->
  sigs_left kd sl = Val (lib_left kd par priv).
Proof.
  intros P H. unfold StatefulModel.sigs_left. destruct kd.
  - destruct H as (L & tail & B). change (N.of_nat (length (layout Lms par pub priv))) with (nlen (layout Lms par pub priv)) in L.
    rewrite B, L, deserialize_layout by auto. reflexivity.
  - rewrite (load_layout _ _ _ _ _ P H). reflexivity.
Qed.
Lemma public_layout kd par pub priv sl : proper kd par pub priv -> holds sl (layout kd par pub priv) ->
  public_of tab kd sl = Val (par, pub).
Proof.
  intros P (L & tail & B). change (N.of_nat (length (layout kd par pub priv))) with (nlen (layout kd par pub priv)) in L.
  unfold public_of. rewrite B, L, deserialize_layout by auto. reflexivity.
Qed.

(** * Key generation *)
Lemma skipn_skipn' {A} (l : list A) : forall a b, skipn a (skipn b l) = skipn (b + a) l.
Proof. induction l as [|x l IH]; intros a b; [rewrite !skipn_nil; auto|]. destruct b; cbn [skipn plus]; auto. Qed.
Lemma write3 h pf pub buf : nlen h = 12 -> 12 + nlen pf + nlen pub <= nlen buf ->
  writes [(0, h); (HDR, pf); (HDR + nlen pf, pub)] buf = Val (h ++ pf ++ pub ++ skipn (length h + length pf + length pub) buf).
Proof.
  intros H L. unfold writes, HDR. unfold nlen in *.
  rewrite (mwrite_first h buf) by (unfold nlen; lia). cbn [acc bind].
  rewrite (mwrite_app 12 pf h) by (unfold nlen; rewrite ?skipn_length; lia). cbn [acc bind]. rewrite skipn_skipn'.
  rewrite (app_assoc h). rewrite mwrite_app by (unfold nlen; rewrite ?app_length, ?skipn_length; lia). cbn [acc bind].
  rewrite skipn_skipn', <- !app_assoc. reflexivity.
Qed.
Lemma writes_app a b buf : writes (a ++ b) buf = bind (writes a buf) (writes b).
Proof. revert buf. induction a as [|[o d] a IH]; intros buf; cbn [app writes bind]; auto. destruct (mwrite o d buf); cbn [acc bind]; auto. Qed.

Lemma serialize_layout kd par pub priv pv buf max : nlen buf = cap -> proper kd par pub priv -> max <= cap -> nlen (layout kd par pub priv) <= max ->
  (pv = Some priv \/ (pv = None /\ exists a t, buf = a ++ priv ++ t /\ nlen a = 12 + nlen (named kd par) + nlen pub)) ->
  exists tail, serialize kd par pub pv (nlen priv) max buf = Val (layout kd par pub priv ++ tail, nlen (layout kd par pub priv)).
Proof.
  intros BL P M1 M2 PV. destruct (proper_lens _ _ _ _ P) as (X1 & X2 & X3 & X4 & X5).
  unfold serialize. rewrite par_named. destruct (N.ltb_spec 65535 (nlen pub)); [lia|]. destruct (N.ltb_spec 65535 (nlen (named kd par))); [lia|].
  rewrite layout_length in *. unfold HDR at 1. destruct (N.ltb_spec max (12 + nlen (named kd par) + nlen pub + nlen priv)); [lia|].
  rewrite head_enc by auto. rewrite writes_app, write3 by (auto using head_length; lia). cbn [bind].
  unfold HDR at 2. rewrite (N.mod_small (12 + _ + _ + _)) by lia. rewrite layout_head.
  assert (HL : length (head kd par pub priv) = 12%nat) by (pose proof (head_length kd par pub priv); unfold nlen in *; lia). rewrite HL.
  set (rest := skipn (12 + length (named kd par) + length pub) buf).
  destruct PV as [->|(-> & a & t & B & AL)].
  - unfold writes. rewrite (app_assoc (head _ _ _ _)), (app_assoc (_ ++ _)). rewrite mwrite_app.
    + cbn [acc bind]. eexists. f_equal. f_equal. rewrite <- !app_assoc. reflexivity.
    + rewrite !nlen_app, head_length. reflexivity.
    + unfold rest, nlen in *. rewrite skipn_length. lia.
  - unfold writes. cbn [bind]. exists t. f_equal. f_equal. unfold rest. rewrite B.
    rewrite skipn_app_len by (unfold nlen in *; lia). rewrite <- !app_assoc. reflexivity.
Qed.

Lemma keygen_layout kd par pub priv nv buf stored : nlen buf = cap -> proper kd par pub priv ->
  exists sl, keygen cap kd par pub priv nv buf stored = Val (nv, sl, if Z.eqb nv OK then Some (layout kd par pub priv) else stored) /\
    holds sl (layout kd par pub priv).
Proof.
  intros BL P. destruct (proper_lens _ _ _ _ P) as (X1 & X2 & X3 & X4 & X5). pose proof (proj1 (proj2 (proj2 (proj2 P)))) as LC.
  change (N.of_nat (length (layout kd par pub priv))) with (nlen (layout kd par pub priv)) in LC.
  pose proof (layout_length kd par pub priv) as LL.
  unfold keygen. rewrite par_named. unfold HDR. rewrite (N.mod_small (12 + _ + _)) by lia. rewrite (N.mod_small (nlen priv)) by auto.
  destruct (N.ltb_spec cap (12 + nlen (named kd par) + nlen pub + nlen priv)); [lia|].
  set (off := 12 + nlen (named kd par) + nlen pub) in *.
  assert (W : exists t, mwrite off priv buf = Some (firstn (N.to_nat off) buf ++ priv ++ t)).
  { unfold mwrite. destruct (N.leb_spec (off + nlen priv) (nlen buf)); [|lia]. eexists. reflexivity. }
  destruct W as [t W]. rewrite W. cbn [acc bind]. set (b1 := firstn _ _ ++ _ ++ _) in *.
  assert (FL : nlen (firstn (N.to_nat off) buf) = off) by (unfold nlen in *; rewrite firstn_length; lia).
  assert (B1 : nlen b1 = cap).
  { destruct (mwrite_some off priv buf) as (b & E & L); [lia|]. rewrite W in E. injection E as <-. congruence. }
  assert (S : exists tail, match kd with Lms => serialize kd par pub (Some priv) (nlen priv) cap b1 | Xmss => serialize kd par pub None (nlen priv) cap b1 end =
     Val (layout kd par pub priv ++ tail, nlen (layout kd par pub priv))).
  { destruct kd; apply serialize_layout; auto; try lia. right. split; auto. exists (firstn (N.to_nat off) buf), t. split; auto. }
  destruct S as [tail S]. rewrite S. cbn [bind fst snd].
  rewrite (mread_first _ (layout kd par pub priv)) by reflexivity. cbn [acc bind]. eexists. split; [reflexivity|].
  split; [reflexivity|]. exists tail. reflexivity.
Qed.

Lemma writes_in buf ws : Forall (fun w => fst w + nlen (snd w) <= nlen buf) ws -> exists b, writes ws buf = Val b /\ nlen b = nlen buf.
Proof.
  revert buf. induction ws as [|[o d] r IH]; intros buf F; cbn [writes]; [eexists; split; reflexivity|].
  inversion F as [|? ? W R]; subst. cbn [fst snd] in W. destruct (mwrite_some o d buf W) as (b & E & L). rewrite E. cbn [acc bind].
  destruct (IH b) as (b' & E' & L'). { eapply Forall_impl; [|exact R]. intros w X. rewrite L. exact X. }
  exists b'. split; auto. congruence.
Qed.
Lemma serialize_in kd par pub pv n max buf : nlen buf = max -> (pv = None \/ exists v, pv = Some v /\ nlen v = n) -> max < 65536 ->
  serialize kd par pub pv n max buf <> Wild /\ forall b t, serialize kd par pub pv n max buf = Val (b, t) -> nlen b = max /\ t <= max.
Proof.
  intros BL PV M. unfold serialize. destruct (65535 <? nlen pub); [split; [discriminate|intros; discriminate]|].
  destruct (65535 <? nlen (par_field kd par)); [split; [discriminate|intros; discriminate]|].
  destruct (N.ltb_spec max (HDR + nlen (par_field kd par) + nlen pub + n)); [split; [discriminate|intros; discriminate]|].
  match goal with |- context [writes ?ws buf] => destruct (writes_in buf ws) as (b & E & L) end.
  { assert (HL : nlen (enc_header (magic_of kd) (nlen pub) n (nlen (par_field kd par))) = 12) by reflexivity.
    unfold HDR in *. cbn [app]. repeat (constructor; cbn [fst snd]; [lia|]). destruct PV as [->|(v & -> & <-)]; repeat (constructor; cbn [fst snd]; try lia). }
  rewrite E. cbn [bind]. split; [discriminate|]. intros b' t X. injection X as <- <-. split; [congruence|]. rewrite N.mod_small by lia. lia.
Qed.
Lemma keygen_in kd par pub priv nv buf stored : nlen buf = cap -> cap < 65536 -> keygen cap kd par pub priv nv buf stored <> Wild.
Proof.
  intros BL C. unfold keygen. set (off := _ mod 65536). destruct (N.ltb_spec cap (off + nlen priv)); [discriminate|].
  destruct (mwrite_some off priv buf) as (b & E & L); [lia|]. rewrite E. cbn [acc bind]. rewrite (N.mod_small (nlen priv)) by lia.
  assert (S : forall pv, pv = None \/ (exists v, pv = Some v /\ nlen v = nlen priv) ->
    bind (serialize kd par pub pv (nlen priv) cap b) (fun r => bind (acc (mread 0 (snd r) (fst r))) (fun o =>
      Val (nv, mkSl (fst r) (snd r), if is_ok nv then Some o else stored))) <> Wild).
  { intros pv PV. destruct (serialize_in kd par pub pv (nlen priv) cap b) as [S1 S2]; [congruence|auto|auto|].
    destruct (serialize kd par pub pv (nlen priv) cap b) as [[b2 t]|rc|]; cbn [bind]; [|discriminate|contradiction]. destruct (S2 _ _ eq_refl) as [S3 S4].
    cbn [fst snd]. unfold mread. rewrite S3, N.add_0_l. destruct (N.leb_spec t cap); [discriminate|lia]. }
  destruct kd; [apply (S (Some priv)); eauto|apply (S None); auto].
Qed.

(** * Slots with any content *)
Definition sound_slot (sl : slot) : Prop := s_len sl <= nlen (s_buf sl) /\ s_len sl < 65536.
Lemma dec_bounds m buf size l : dec_header m buf size = Val l -> 12 + l_par l + l_pub l + l_priv l <= size /\ 12 <= size.
Proof.
  unfold dec_header, HDR. destruct (N.ltb_spec size 12); [discriminate|]. destruct (mread 0 12 buf) as [h|]; [|discriminate]. cbn [acc bind].
  destruct (_ || _); [discriminate|]. destruct (N.ltb_spec size (12 + field 8 2 h + field 4 2 h + field 6 2 h)); [discriminate|].
  intros E. injection E as <-. cbn [l_par l_pub l_priv]. lia.
Qed.
Lemma dec_never_wild m buf size : size <= nlen buf -> dec_header m buf size <> Wild.
Proof.
  intros L. unfold dec_header, HDR. destruct (N.ltb_spec size 12); [discriminate|]. destruct (mread_some 0 12 buf) as (h & -> & _); [lia|]. cbn [acc bind].
  destruct (_ || _); [discriminate|]. destruct (_ <? _); discriminate.
Qed.
Lemma deserialize_any kd sl : sound_slot sl ->
  deserialize kd (s_buf sl) (s_len sl) <> Wild /\
  forall k, deserialize kd (s_buf sl) (s_len sl) = Val k -> 12 <= s_len sl /\
    exists l, dec_header (magic_of kd) (s_buf sl) (s_len sl) = Val l.
Proof.
  intros [L M]. rewrite ?deserialize_alt; unfold deserialize0. pose proof (dec_never_wild (magic_of kd) _ _ L) as NW.
  destruct (dec_header (magic_of kd) (s_buf sl) (s_len sl)) as [l|rc|] eqn:D; cbn [bind]; [|split; [discriminate|discriminate]|contradiction].
  destruct (dec_bounds _ _ _ _ D) as [B1 B2].
  set (par := match kd with Lms => _ | Xmss => _ end).
  assert (PW : par <> Wild).
  { subst par. destruct kd.
    - destruct (N.eqb_spec (l_par l) 3); cbn [negb]; [|discriminate]. destruct (mread_some HDR 3 (s_buf sl)) as (d & -> & _); [unfold HDR; lia|]. discriminate.
    - destruct (N.eqb_spec (l_par l) 0); [discriminate|]. destruct (mread_some (HDR + (l_par l - 1)) 1 (s_buf sl)) as (d & -> & _); [unfold HDR; lia|].
      cbn [acc bind]. destruct (negb _); [discriminate|]. destruct (mread_some HDR (l_par l) (s_buf sl)) as (d' & -> & _); [unfold HDR; lia|]. discriminate. }
  destruct par as [p|rc|]; cbn [bind]; [|split; discriminate|contradiction].
  destruct (tab kd p) as [[pl vl]|]; [|split; discriminate]. destruct (negb (pl =? l_pub l)); [split; discriminate|].
  destruct (_ && _); [split; discriminate|].
  destruct (mread_some (HDR + l_par l) (l_pub l) (s_buf sl)) as (d & -> & _); [unfold HDR; lia|]. cbn [acc bind].
  destruct kd.
  - destruct (0 <? l_priv l).
    + destruct (mread_some (HDR + l_par l + l_pub l) (l_priv l) (s_buf sl)) as (d' & -> & _); [unfold HDR; lia|]. cbn [acc bind].
      split; [discriminate|]. intros k _. split; eauto.
    + split; [discriminate|]. intros k _. split; eauto.
  - split; [discriminate|]. intros k _. split; eauto.
Qed.
Lemma load_any kd sl : sound_slot sl -> load_priv kd sl <> Wild /\
  forall k off v, load_priv kd sl = Val (k, off, v) -> 12 <= s_len sl /\ off + nlen v <= s_len sl.
Proof.
  intros H. pose proof H as [L M]. unfold StatefulModel.load_priv. destruct (deserialize_any kd sl H) as [D1 D2].
  destruct (deserialize kd (s_buf sl) (s_len sl)) as [k|rc|] eqn:D; cbn [bind]; [|split; discriminate|contradiction].
  destruct (D2 _ eq_refl) as [B _]. unfold priv_off. destruct (mread_some 0 HDR (s_buf sl)) as (h & -> & _); [unfold HDR; lia|]. cbn [acc bind].
  destruct (tab kd (k_par k)) as [[pl vl]|]; [|split; discriminate]. unfold read_cb. set (off := _ mod 65536).
  destruct (N.ltb_spec (s_len sl) (off + vl)); cbn [bind]; [split; discriminate|].
  destruct (mread_some off vl (s_buf sl)) as (v & -> & VL); [lia|]. cbn [acc bind]. split; [discriminate|].
  intros k' off' v' E. injection E as <- <- <-. lia.
Qed.
Lemma sign_any kd sl dma nv msg stored : lib_sized lib_sign -> sound_slot sl -> exists r, sign kd dma nv msg sl stored = Val r /\ sound_slot (t_slot r) /\
  length (s_buf (t_slot r)) = length (s_buf sl).
Proof.
  intros LS H. unfold StatefulModel.sign. destruct (load_any kd sl H) as [D1 D2].
  destruct (load_priv kd sl) as [[[k off] v]|rc|]; [|eexists; split; [reflexivity|]; auto|contradiction].
  destruct (negb (is_ok dma)); [eexists; split; [reflexivity|]; auto|].
  destruct (lib_sign kd (k_par k) (k_pub k) v msg) as [[sg v']|] eqn:S; [|eexists; split; [reflexivity|]; auto].
  destruct (D2 _ _ _ eq_refl) as [B1 B2]. pose proof (LS _ _ _ _ _ _ _ S) as LV. assert (NV : nlen v' = nlen v) by (unfold nlen; lia).
  unfold write_cb. rewrite NV. destruct (N.ltb_spec cap (off + nlen v)).
  { cbn [bind]. eexists; split; [reflexivity|]; auto. }
  pose proof H as [H1 H2]. destruct (mwrite_some off v' (s_buf sl)) as (b1 & -> & L1); [lia|]. cbn [acc bind].
  assert (L2 : nlen (le_enc 2 (nlen v mod 65536)) = 2) by reflexivity.
  destruct (mwrite_some 6 (le_enc 2 (nlen v mod 65536)) b1) as (b2 & -> & L3); [lia|]. cbn [acc bind].
  rewrite (N.mod_small (off + nlen v)) by lia. destruct (mread_some 0 (off + nlen v) b2) as (o & -> & _); [lia|]. cbn [acc bind].
  assert (X : sound_slot (mkSl b2 (off + nlen v)) /\ length b2 = length (s_buf sl)).
  { unfold sound_slot. cbn [s_len s_buf]. unfold nlen in *. split; [split; lia|lia]. }
  eexists; split; [reflexivity|]. destruct (is_ok nv); exact X.
Qed.
Lemma left_any kd sl : sound_slot sl -> sigs_left kd sl <> Wild.
Proof.
  intros H. unfold StatefulModel.sigs_left. destruct kd.
  - destruct (deserialize_any Lms sl H) as [D _]. destruct (deserialize Lms (s_buf sl) (s_len sl)) as [k|rc|]; cbn [bind]; [|discriminate|contradiction].
    destruct (k_priv k); [discriminate|]. destruct (tab Lms (k_par k)) as [[? ?]|]; discriminate.
  - destruct (load_any Xmss sl H) as [D _]. destruct (load_priv Xmss sl) as [k|rc|]; cbn [bind]; [discriminate|discriminate|contradiction].
Qed.
Lemma export_any kd room sl : sound_slot sl -> export_public tab kd room sl <> Wild.
Proof.
  intros H. unfold export_public, public_of. destruct (deserialize_any kd sl H) as [D _].
  destruct (deserialize kd (s_buf sl) (s_len sl)) as [k|rc|]; cbn [bind]; [|discriminate|contradiction]. destruct (_ <? _); discriminate.
Qed.

(** * What cannot sign *)
Lemma field_at o b h : mread 0 12 b = Some h -> (S o < 12)%nat -> field o 2 h = at16 o b.
Proof.
  unfold mread. destruct (N.leb_spec (0 + 12) (nlen b)); [|discriminate]. intros E LO. injection E as <-. cbn [N.to_nat skipn]. unfold field, at16.
  assert (L : (12 <= length b)%nat) by (unfold nlen in *; lia). clear H.
  change (Pos.to_nat 12) with 12%nat.
  do 12 (destruct b as [|? b]; [cbn [length] in L; lia|]). clear L.
  do 11 (destruct o as [|o]; [cbn [firstn skipn nth le_dec]; lia|]). lia.
Qed.
Lemma bind_code {A B} (x : out A) (f : A -> out B) : x <> Fail OK -> (forall a, f a <> Fail OK) -> bind x f <> Fail OK.
Proof. intros X F. destruct x; cbn [bind]; auto; congruence. Qed.
Lemma acc_code {A} (x : option A) : acc x <> Fail OK.
Proof. destruct x; discriminate. Qed.
Lemma load_code kd sl : load_priv kd sl <> Fail OK.
Proof.
  unfold StatefulModel.load_priv. apply bind_code.
  - rewrite ?deserialize_alt; unfold deserialize0. apply bind_code.
    + unfold dec_header. destruct (_ <? _); [discriminate|]. apply bind_code; [apply acc_code|]. intros h. destruct (_ || _); [discriminate|]. destruct (_ <? _); discriminate.
    + intros l. apply bind_code.
      * destruct kd; [destruct (negb _); [discriminate|apply acc_code]|]. destruct (_ =? _); [discriminate|]. apply bind_code; [apply acc_code|].
        intros e. destruct (negb _); [discriminate|]. apply bind_code; [apply acc_code|]. discriminate.
      * intros p. destruct (tab kd p) as [[pl vl]|]; [|discriminate]. destruct (negb _); [discriminate|]. destruct (_ && _); [discriminate|].
        apply bind_code; [apply acc_code|]. intros pub. destruct kd; [|discriminate]. destruct (_ <? _); [|discriminate]. apply bind_code; [apply acc_code|discriminate].
  - intros k. apply bind_code; [unfold priv_off; apply bind_code; [apply acc_code|discriminate]|]. intros off. destruct (tab kd (k_par k)) as [[pl vl]|]; [|discriminate].
    apply bind_code; [|discriminate]. unfold read_cb. destruct (_ <? _); [discriminate|apply acc_code].
Qed.
Lemma import_cannot_sign kd b tail dma nv msg stored : nlen b < 65536 -> stateful_blob b = false -> declared b = nlen b ->
  (forall par pl vl, tab kd par = Some (pl, vl) -> 0 < vl) ->
  exists r, sign kd dma nv msg (mkSl (b ++ tail) (nlen b)) stored = Val r /\ t_sig r = None /\ t_rc r <> OK /\
    t_slot r = mkSl (b ++ tail) (nlen b) /\ t_nvm r = stored.
Proof.
  intros BL SB DE TV. unfold StatefulModel.sign. set (sl := mkSl (b ++ tail) (nlen b)).
  assert (SS : sound_slot sl) by (unfold sound_slot, sl; cbn [s_len s_buf]; rewrite nlen_app; lia).
  destruct (load_any kd sl SS) as [D1 _].
  destruct (load_priv kd sl) as [[[k off] v]|rc|] eqn:E; [| |contradiction].
  2:{ exists (mkRes rc None sl stored). cbn [t_sig t_rc t_slot t_nvm]. repeat split; auto. intros ->. exact (load_code kd sl E). }
  exfalso. revert E. unfold StatefulModel.load_priv, priv_off.
  destruct (deserialize_any kd sl SS) as [_ DX].
  destruct (deserialize kd (s_buf sl) (s_len sl)) as [k0|rc|] eqn:DS; [|discriminate|discriminate]. cbn [bind].
  destruct (DX _ eq_refl) as [B12 [l DH]]. clear DX. cbn [s_len sl] in B12.
  unfold dec_header, HDR in DH. cbn [s_len sl] in DH. destruct (N.ltb_spec (nlen b) 12); [lia|].
  unfold HDR. destruct (mread 0 12 (s_buf sl)) as [h|] eqn:MH; [|discriminate]. cbn [acc bind] in DH |- *.
  destruct (_ || _) eqn:MG; [discriminate|]. apply Bool.orb_false_iff in MG as [MG _]. apply Bool.negb_false_iff, N.eqb_eq in MG.
  destruct (tab kd (k_par k0)) as [[pl vl]|] eqn:T; [|discriminate]. pose proof (TV _ _ _ T) as VP.
  assert (MB : mread 0 12 b = Some h).
  { revert MH. unfold mread. cbn [s_buf sl]. rewrite nlen_app. destruct (N.leb_spec (0 + 12) (nlen b + nlen tail)); [|discriminate].
    destruct (N.leb_spec (0 + 12) (nlen b)); [|lia]. intros X. rewrite <- X. f_equal. cbn [N.to_nat skipn]. rewrite firstn_app.
    replace (Pos.to_nat 12 - length b)%nat with 0%nat by (unfold nlen in *; lia). cbn [firstn]. rewrite app_nil_r. reflexivity. }
  assert (PZ : at16 6 b = 0).
  { unfold stateful_blob in SB. destruct (Nat.ltb_spec (length b) 12); [unfold nlen in *; lia|].
    assert (HF : firstn 4 b = firstn 4 (skipn 0 h) /\ firstn 2 (skipn 6 b) = firstn 2 (skipn 6 h)).
    { revert MB. unfold mread. destruct (_ <=? _); [|discriminate]. intros X. injection X as <-. cbn [N.to_nat skipn]. change (Pos.to_nat 12) with 12%nat.
      do 12 (destruct b as [|? b]; [cbn [length] in *; lia|]). split; reflexivity. }
    destruct HF as [H4 H6]. rewrite H4 in SB. fold (field 0 4 h) in SB. rewrite MG in SB.
    assert (K : (magic_of kd =? MAGIC_LMS) || (magic_of kd =? MAGIC_XMSS) = true) by (destruct kd; reflexivity). rewrite K in SB.
    apply Bool.negb_false_iff, N.eqb_eq in SB. rewrite H6 in SB. fold (field 6 2 h) in SB. rewrite <- SB. symmetry. apply field_at; auto. lia. }
  rewrite !(field_at _ b h MB) by lia. unfold declared in DE. unfold read_cb. cbn [s_len sl].
  rewrite N.mod_small by lia.
  destruct (N.ltb_spec (nlen b) (12 + at16 8 b + at16 4 b + vl)); [discriminate|]. lia.
Qed.

(** * What lies behind the contents of a slot does not matter *)
Lemma mread_tail off n d tail : off + n <= nlen d -> mread off n (d ++ tail) = mread off n d.
Proof.
  intros L. unfold mread. rewrite nlen_app. destruct (N.leb_spec (off + n) (nlen d + nlen tail)); [|lia]. destruct (N.leb_spec (off + n) (nlen d)); [|lia].
  f_equal. rewrite skipn_app, firstn_app. unfold nlen in *. rewrite skipn_length.
  replace (N.to_nat n - (length d - N.to_nat off))%nat with 0%nat by lia. cbn [firstn]. apply app_nil_r.
Qed.
Lemma dec_tail m d tail : dec_header m (d ++ tail) (nlen d) = dec_header m d (nlen d).
Proof. unfold dec_header. destruct (N.ltb_spec (nlen d) HDR); [reflexivity|]. rewrite mread_tail by lia. reflexivity. Qed.
Lemma deserialize_tail kd d tail : deserialize kd (d ++ tail) (nlen d) = deserialize kd d (nlen d).
Proof.
  rewrite ?deserialize_alt; unfold deserialize0. rewrite dec_tail. destruct (dec_header (magic_of kd) d (nlen d)) as [l|rc|] eqn:D; cbn [bind]; auto.
  destruct (dec_bounds _ _ _ _ D) as [B1 B2]. unfold HDR in *.
  assert (PE : match kd with
    | Lms => if negb (l_par l =? 3) then Fail BADARGS else acc (mread 12 3 (d ++ tail))
    | Xmss => if l_par l =? 0 then Fail BADARGS else bind (acc (mread (12 + (l_par l - 1)) 1 (d ++ tail))) (fun e => if negb (nth 0 e 1 =? 0) then Fail BADARGS else bind (acc (mread 12 (l_par l) (d ++ tail))) (fun s => Val (upto s)))
    end = match kd with
    | Lms => if negb (l_par l =? 3) then Fail BADARGS else acc (mread 12 3 d)
    | Xmss => if l_par l =? 0 then Fail BADARGS else bind (acc (mread (12 + (l_par l - 1)) 1 d)) (fun e => if negb (nth 0 e 1 =? 0) then Fail BADARGS else bind (acc (mread 12 (l_par l) d)) (fun s => Val (upto s)))
    end).
  { destruct kd.
    - destruct (N.eqb_spec (l_par l) 3); cbn [negb]; auto. rewrite mread_tail by lia. reflexivity.
    - destruct (N.eqb_spec (l_par l) 0); auto. rewrite !mread_tail by lia. reflexivity. }
  rewrite PE. match goal with |- bind ?P _ = _ => destruct P as [p|rc|] end; cbn [bind]; auto.
  destruct (tab kd p) as [[pl vl]|]; [|reflexivity]. rewrite (mread_tail (12 + l_par l) (l_pub l)) by lia. rewrite (mread_tail (12 + l_par l + l_pub l) (l_priv l)) by lia. reflexivity.
Qed.
Definition onto (tail : list N) (r : sres) : sres := mkRes (t_rc r) (t_sig r) (mkSl (s_buf (t_slot r) ++ tail) (s_len (t_slot r))) (t_nvm r).
Lemma mwrite_tail off v d tail : off + nlen v <= nlen d -> mwrite off v (d ++ tail) = option_map (fun b => b ++ tail) (mwrite off v d).
Proof.
  intros L. unfold mwrite. rewrite nlen_app. destruct (N.leb_spec (off + nlen v) (nlen d + nlen tail)); [|lia]. destruct (N.leb_spec (off + nlen v) (nlen d)); [|lia].
  cbn [option_map]. f_equal. unfold nlen in *. rewrite firstn_app, skipn_app. replace (N.to_nat off - length d)%nat with 0%nat by lia.
  replace (N.to_nat off + length v - length d)%nat with 0%nat by lia. cbn [firstn skipn]. rewrite app_nil_r, <- !app_assoc. reflexivity.
Qed.
Lemma load_tail kd d tail : nlen d < 65536 -> load_priv kd (mkSl (d ++ tail) (nlen d)) = load_priv kd (mkSl d (nlen d)).
Proof.
  intros L. unfold StatefulModel.load_priv. cbn [s_buf s_len]. rewrite deserialize_tail.
  destruct (deserialize_any kd (mkSl d (nlen d))) as [_ DX]; [unfold sound_slot; cbn [s_len s_buf]; lia|]. cbn [s_buf s_len] in DX.
  destruct (deserialize kd d (nlen d)) as [k|rc|]; cbn [bind]; auto. destruct (DX _ eq_refl) as [B _]. unfold priv_off. rewrite mread_tail by (unfold HDR; lia).
  destruct (mread 0 HDR d) as [h|]; cbn [acc bind]; auto. destruct (tab kd (k_par k)) as [[pl vl]|]; auto. unfold read_cb. cbn [s_len s_buf].
  set (off := _ mod 65536). destruct (N.ltb_spec (nlen d) (off + vl)); auto. rewrite mread_tail by lia. reflexivity.
Qed.
Lemma sign_tail kd d tail dma nv msg stored : lib_sized lib_sign -> nlen d < 65536 ->
  sign kd dma nv msg (mkSl (d ++ tail) (nlen d)) stored =
  bind (sign kd dma nv msg (mkSl d (nlen d)) stored) (fun r => Val (onto tail r)) /\
  exists r, sign kd dma nv msg (mkSl d (nlen d)) stored = Val r /\ s_len (t_slot r) <= nlen (s_buf (t_slot r)) /\ (t_slot r = mkSl d (nlen d) \/ t_slot r = mkSl (s_buf (t_slot r)) (s_len (t_slot r))).
Proof.
  intros LS L. assert (SS : sound_slot (mkSl d (nlen d))) by (unfold sound_slot; cbn [s_len s_buf]; lia). split.
  2:{ destruct (sign_any kd _ dma nv msg stored LS SS) as (r & E & S2 & _). exists r. split; auto. destruct S2. split; auto. right. destruct (t_slot r); reflexivity. }
  unfold StatefulModel.sign. rewrite load_tail by auto. destruct (load_any kd _ SS) as [LW LB].
  destruct (load_priv kd (mkSl d (nlen d))) as [[[k off] v]|rc|]; [|reflexivity|reflexivity]. destruct (LB _ _ _ eq_refl) as [B1 B2]. cbn [s_len] in B1, B2.
  destruct (negb (is_ok dma)); [reflexivity|]. destruct (lib_sign kd (k_par k) (k_pub k) v msg) as [[sg v']|] eqn:S; [|reflexivity].
  pose proof (LS _ _ _ _ _ _ _ S) as LV. assert (NV : nlen v' = nlen v) by (unfold nlen; lia).
  unfold write_cb. rewrite NV. destruct (cap <? off + nlen v); [reflexivity|]. cbn [s_buf].
  rewrite mwrite_tail by lia. destruct (mwrite_some off v' d) as (b1 & -> & L1); [lia|]. cbn [option_map acc bind].
  assert (L2 : nlen (le_enc 2 (nlen v mod 65536)) = 2) by reflexivity.
  rewrite mwrite_tail by lia. destruct (mwrite_some 6 (le_enc 2 (nlen v mod 65536)) b1) as (b2 & -> & L3); [lia|]. cbn [option_map acc bind].
  rewrite (N.mod_small (off + nlen v)) by lia. rewrite mread_tail by lia. destruct (mread 0 (off + nlen v) b2) as [o|]; [|reflexivity]. cbn [acc bind].
  destruct (is_ok nv); reflexivity.
Qed.

(** * Histories *)
Lemma follows_trans kd par pub a b c : follows kd par pub a b -> follows kd par pub b c -> follows kd par pub a c.
Proof. induction 1 as [|v msg sg v1 v2 S _ IH]; intros H; auto. eapply f_next; eauto. Qed.
Lemma follows_length kd par pub a b : lib_sized lib_sign -> follows kd par pub a b -> length b = length a.
Proof. intros LS. induction 1 as [|v msg sg v1 v2 S _ IH]; auto. rewrite IH. eapply LS; eauto. Qed.
Lemma follows_one kd par pub v msg sg v' : lib_sign kd par pub v msg = Some (sg, v') -> follows kd par pub v v'.
Proof. intros H. eapply f_next; [exact H|constructor]. Qed.

Notation op_step := (op_step tab lib_sign lib_left cap).
Notation op_run := (op_run tab lib_sign lib_left cap).
Notation key_at := (key_at lib_sign).
Notation plain_answer := (plain_answer lib_sign lib_left).

(** The signature an answer hands out. *)
Definition handed (o : op) (a : ans) : list (list N * list N) :=
  match o, a with OSign _ _ msg _ _, ASig _ (Some sg) => [(msg, sg)] | _, _ => [] end.
Lemma fresh_holds kd par pub p q tail s : key_at kd par pub p q s -> exists sl, fresh tail s = Some sl /\ holds sl (layout kd par pub q).
Proof.
  intros (N & F & S). unfold fresh. destruct (q_slot s) as [sl|]; [eauto|]. rewrite N. subst q. eexists. split; [reflexivity|].
  split; [reflexivity|]. exists tail. reflexivity.
Qed.
Lemma step_key kd par pub v0 p q o s a s' : lib_sized lib_sign -> proper kd par pub v0 -> follows kd par pub v0 p -> key_at kd par pub p q s ->
  op_step kd o s = (a, s') ->
  plain_answer kd par pub v0 a /\ exists p' q', key_at kd par pub p' q' s' /\ follows kd par pub p p' /\
    (handed o a = [] \/ exists u, handed o a = [(u_msg u, u_sig u)] /\ lib_sign kd par pub (u_key u) (u_msg u) = Some (u_sig u, u_next u) /\
       follows kd par pub p (u_key u) /\ follows kd par pub (u_next u) p').
Proof.
  intros LS P0 F0 K E. pose proof K as (KN & KF & KS).
  assert (PQ : proper kd par pub q).
  { eapply proper_next; [exact P0|]. apply (follows_length kd par pub); auto. eapply follows_trans; eauto. }
  destruct o as [dma nv msg ev tail|tail|room tail|]; cbn [StatefulModel.op_step] in E.
  - destruct (fresh_holds _ _ _ _ _ tail _ K) as (sl & FS & HS). rewrite FS in E.
    destruct (sign_layout kd par pub q sl dma nv msg (q_nvm s) LS PQ HS) as (r & SR & CS). rewrite SR in E. injection E as <- <-.
    destruct CS as [(SG & RC & SL & NV & _)|(sg & q' & LB & -> & HL & _ & CS)].
    + rewrite SG. split; [cbn [StatefulSpec.plain_answer]; split; congruence|].
      destruct ev.
      * exists p, p. split; [|split; [constructor|left; reflexivity]]. split; [cbn [q_nvm]; rewrite NV; exact KN|]. split; [constructor|reflexivity].
      * exists p, q. split; [|split; [constructor|left; reflexivity]]. split; [cbn [q_nvm]; rewrite NV; exact KN|]. split; [exact KF|]. cbn [q_slot]. rewrite SL. exact HS.
    + destruct (Z.eqb nv OK).
      * destruct CS as (RC & SG & NV). rewrite SG, RC. split; [cbn [StatefulSpec.plain_answer]; split; congruence|].
        exists q', q'. split.
        { split; [exact NV|]. split; [constructor|]. cbn [q_slot]. destruct ev; [reflexivity|exact HL]. }
        split; [eapply follows_trans; [exact KF|]; eapply follows_one; eauto|].
        right. exists (mkUse q msg sg q'). cbn [u_msg u_sig u_key u_next]. split; [reflexivity|]. split; [exact LB|]. split; [exact KF|constructor].
      * destruct CS as (RC & SG & NV). rewrite SG. split; [cbn [StatefulSpec.plain_answer]; split; congruence|].
        destruct ev.
        -- exists p, p. split; [|split; [constructor|left; reflexivity]]. split; [cbn [q_nvm]; rewrite NV; exact KN|]. split; [constructor|reflexivity].
        -- exists p, q'. split; [|split; [constructor|left; reflexivity]]. split; [cbn [q_nvm]; rewrite NV; exact KN|].
           split; [eapply follows_trans; [exact KF|]; eapply follows_one; eauto|]. exact HL.
  - destruct (fresh_holds _ _ _ _ _ tail _ K) as (sl & FS & HS). rewrite FS in E. injection E as <- <-.
    rewrite (left_layout _ _ _ _ _ PQ HS). split.
    + cbn [StatefulSpec.plain_answer]. exists q. split; auto. eapply follows_trans; eauto.
    + exists p, q. split; [|split; [constructor|left; reflexivity]]. split; [exact KN|]. split; auto.
  - destruct (fresh_holds _ _ _ _ _ tail _ K) as (sl & FS & HS). rewrite FS in E. injection E as <- <-.
    unfold export_public. rewrite (public_layout _ _ _ _ _ PQ HS). cbn [bind snd]. split.
    + cbn [StatefulSpec.plain_answer]. destruct (_ <? _); auto.
    + exists p, q. split; [|split; [constructor|left; reflexivity]]. split; [exact KN|]. split; auto.
  - injection E as <- <-. split; [exact I|]. exists p, p. split; [|split; [constructor|left; reflexivity]]. split; [exact KN|]. split; [constructor|reflexivity].
Qed.

Lemma made_cons o a os l : made (o :: os) (a :: l) = handed o a ++ made os l.
Proof. destruct o; cbn [made handed app]; auto. destruct a as [? [?|]|?|?| |]; reflexivity. Qed.
Lemma run_key kd par pub v0 os : forall p q s answers s', lib_sized lib_sign -> proper kd par pub v0 -> follows kd par pub v0 p -> key_at kd par pub p q s ->
  op_run kd os s = (answers, s') ->
  Forall (plain_answer kd par pub v0) answers /\ length answers = length os /\
  exists us p' q', map (fun u => (u_msg u, u_sig u)) us = made os answers /\
    Forall (fun u => lib_sign kd par pub (u_key u) (u_msg u) = Some (u_sig u, u_next u)) us /\
    Forall (fun u => follows kd par pub p (u_key u)) us /\
    ForallOrdPairs (fun u w => follows kd par pub (u_next u) (u_key w)) us /\
    key_at kd par pub p' q' s' /\ follows kd par pub p p' /\ Forall (fun u => follows kd par pub (u_next u) p') us.
Proof.
  induction os as [|o os IH]; intros p q s answers s' LS P0 F0 K E; cbn [StatefulModel.op_run] in E.
  - injection E as <- <-. split; [constructor|]. split; [reflexivity|]. exists [], p, q.
    split; [reflexivity|]. split; [constructor|]. split; [constructor|]. split; [constructor|]. split; [exact K|]. split; [constructor|constructor].
  - destruct (op_step kd o s) as [a s1] eqn:E1. destruct (op_run kd os s1) as [l s2] eqn:E2. injection E as <- <-.
    destruct (step_key _ _ _ _ _ _ _ _ _ _ LS P0 F0 K E1) as (PA & p1 & q1 & K1 & F1 & HD).
    destruct (IH p1 q1 s1 l s2 LS P0 (follows_trans _ _ _ _ _ _ F0 F1) K1 E2) as (PL & LL & us & p2 & q2 & M & A1 & A2 & A3 & K2 & F2 & A4).
    split; [constructor; auto|]. split; [cbn [length]; lia|].
    rewrite made_cons. destruct HD as [HD|(u & HD & LU & FU & FN)]; rewrite HD; cbn [app].
    + exists us, p2, q2. repeat match goal with |- _ /\ _ => split end; auto; [|eapply follows_trans; eauto].
      eapply Forall_impl; [|exact A2]; intros w X; cbv beta in *; eapply follows_trans; eauto.
    + assert (A5 : Forall (fun w => follows kd par pub p (u_key w)) us).
      { eapply Forall_impl; [|exact A2]. intros w X. exact (follows_trans _ _ _ _ _ _ F1 X). }
      assert (A6 : Forall (fun w => follows kd par pub (u_next u) (u_key w)) us).
      { eapply Forall_impl; [|exact A2]. intros w X. exact (follows_trans _ _ _ _ _ _ FN X). }
      exists (u :: us), p2, q2. cbn [map]. rewrite M. split; [reflexivity|]. split; [constructor; auto|]. split; [constructor; auto|].
      split; [constructor; auto|]. split; [exact K2|]. split; [exact (follows_trans _ _ _ _ _ _ F1 F2)|].
      constructor; auto. exact (follows_trans _ _ _ _ _ _ FN F2).
Qed.

(** * Public keys alone *)
Lemma public_blob kd par pub buf max : nlen buf = max -> max <= 65535 -> 12 + nlen (named kd par) + nlen pub <= max ->
  exists tail, serialize kd par pub None 0 max buf = Val (layout kd par pub [] ++ tail, nlen (layout kd par pub [])).
Proof.
  intros BL M L. unfold serialize. rewrite par_named. destruct (N.ltb_spec 65535 (nlen pub)); [lia|]. destruct (N.ltb_spec 65535 (nlen (named kd par))); [lia|].
  unfold HDR at 1. destruct (N.ltb_spec max (12 + nlen (named kd par) + nlen pub + 0)); [lia|].
  assert (HE : enc_header (magic_of kd) (nlen pub) 0 (nlen (named kd par)) = head kd par pub []) by (apply (head_enc kd par pub []); change (nlen []) with 0; lia).
  rewrite HE, app_nil_r.
  rewrite write3 by (auto using head_length; lia). cbn [bind]. unfold HDR. rewrite N.mod_small by lia.
  rewrite layout_length, layout_head. change (nlen []) with 0. eexists. f_equal. f_equal. rewrite <- !app_assoc. cbn [app]. reflexivity.
Qed.
Lemma public_only kd par pub tail vl : nlen (layout kd par pub []) < 65536 -> tab kd par = Some (nlen pub, vl) ->
  match kd with Lms => length par = 3%nat | Xmss => Forall (fun b => b <> 0) par end ->
  public_of tab kd (mkSl (layout kd par pub [] ++ tail) (nlen (layout kd par pub []))) = Val (par, pub).
Proof.
  intros L T K. unfold public_of. cbn [s_buf s_len]. rewrite deserialize_tail. pose proof (layout_length kd par pub []) as LL. change (nlen []) with 0 in LL.
  rewrite ?deserialize_alt; unfold deserialize0, dec_header. rewrite LL. unfold HDR.
  destruct (N.ltb_spec (12 + nlen (named kd par) + nlen pub + 0) 12); [lia|].
  rewrite layout_head, app_nil_r. rewrite (mread_first 12 (head kd par pub [])) by apply head_length. cbn [acc bind].
  destruct (head_fields kd par pub []) as (F1 & F2 & F3 & F4 & F5); [lia|change (nlen []) with 0; lia|lia|]. change (nlen []) with 0 in F3.
  rewrite F1, F2, F3, F4, F5, !N.eqb_refl. cbn [negb orb].
  destruct (N.ltb_spec (12 + nlen (named kd par) + nlen pub + 0) (12 + nlen (named kd par) + nlen pub + 0)); [lia|]. cbn [bind l_par l_pub l_priv].
  assert (RN : mread 12 (nlen (named kd par)) (head kd par pub [] ++ named kd par ++ pub) = Some (named kd par)) by (apply mread_app; auto using head_length).
  assert (RP : mread (12 + nlen (named kd par)) (nlen pub) (head kd par pub [] ++ named kd par ++ pub) = Some pub).
  { replace (head kd par pub [] ++ named kd par ++ pub) with ((head kd par pub [] ++ named kd par) ++ pub ++ []) by (rewrite app_nil_r, <- app_assoc; reflexivity).
    apply mread_app; auto. rewrite nlen_app, head_length. reflexivity. }
  destruct kd; cbn [named] in *.
  - assert (P3 : nlen par = 3) by (unfold nlen; lia). rewrite P3 in *. rewrite N.eqb_refl. cbn [negb]. rewrite RN. cbn [acc bind]. rewrite T, N.eqb_refl. cbn [negb].
    rewrite N.eqb_refl. cbn [negb andb]. rewrite RP. cbn [acc bind]. reflexivity.
  - assert (NP : nlen (par ++ [0]) = nlen par + 1) by (rewrite nlen_app; reflexivity). destruct (N.eqb_spec (nlen (par ++ [0])) 0); [lia|].
    replace (mread (12 + (nlen (par ++ [0]) - 1)) 1 (head Xmss par pub [] ++ (par ++ [0]) ++ pub)) with (Some [0]).
    2:{ symmetry. rewrite <- (app_assoc par), app_assoc. apply mread_app; auto. rewrite nlen_app, head_length. lia. }
    cbn [acc bind nth]. rewrite N.eqb_refl. cbn [negb]. rewrite RN. cbn [acc bind]. rewrite cstr_plain by auto. rewrite T, !N.eqb_refl. cbn [negb andb]. rewrite RP. reflexivity.
Qed.

(** * What reaches the library *)
Lemma mread_nlen off n buf d : mread off n buf = Some d -> nlen d = n.
Proof. unfold mread. destruct (N.leb_spec (off + n) (nlen buf)); [|discriminate]. intros E. injection E as <-. unfold nlen in *. rewrite firstn_length, skipn_length. lia. Qed.
Lemma magic_read kd buf h : Forall (fun b => b < 256) buf -> mread 0 HDR buf = Some h -> field 0 4 h = magic_of kd -> firstn 4 buf = magic_bytes kd.
Proof.
  intros F R M. unfold mread in R. destruct (_ <=? _) eqn:L; [|discriminate]. injection R as <-. apply N.leb_le in L. unfold field in M.
  destruct buf as [|a [|b [|c [|d r]]]]; try (unfold nlen, HDR in L; cbn [length] in L; lia).
  match type of M with le_dec ?x = _ => change x with [a; b; c; d] in M end. cbn [firstn] in *. cbn [le_dec] in M.
  inversion F as [|? ? A1 F1]; subst. inversion F1 as [|? ? A2 F2]; subst. inversion F2 as [|? ? A3 F3]; subst. inversion F3 as [|? ? A4 F4]; subst.
  destruct kd; cbn [magic_of magic_bytes] in *; unfold MAGIC_LMS, MAGIC_XMSS in M.
  - assert (a = 1 /\ b = 83 /\ c = 77 /\ d = 76) as (-> & -> & -> & ->) by lia. reflexivity.
  - assert (a = 1 /\ b = 83 /\ c = 77 /\ d = 88) as (-> & -> & -> & ->) by lia. reflexivity.
Qed.
Lemma deserialize_sized kd buf size k : deserialize kd buf size = Val k ->
  (exists vl, tab kd (k_par k) = Some (nlen (k_pub k), vl) /\ forall v, k_priv k = Some v -> nlen v = vl mod 65536) /\
  exists h, mread 0 HDR buf = Some h /\ field 0 4 h = magic_of kd.
Proof.
  intros E. rewrite deserialize_alt in E. unfold deserialize0 in E. unfold dec_header in E. destruct (size <? HDR); [discriminate|].
  destruct (mread 0 HDR buf) as [h|] eqn:R; [|discriminate]. cbn [acc bind] in E.
  destruct (N.eqb_spec (field 0 4 h) (magic_of kd)) as [M|]; [|discriminate]. destruct (field 10 2 h =? 0); [|discriminate]. cbn [negb orb] in E.
  destruct (_ <? _); [discriminate|]. cbn [bind l_par l_pub l_priv] in E. split; [|exists h; auto].
  match type of E with bind ?p _ = _ => destruct p as [par|rc|]; [|discriminate|discriminate] end. cbn [bind] in E.
  destruct (tab kd par) as [[pl vl]|] eqn:T; [|discriminate]. destruct (N.eqb_spec pl (field 4 2 h)) as [->|]; [|discriminate]. cbn [negb] in E.
  match type of E with (if ?c then _ else _) = _ => destruct c eqn:PV; [discriminate|] end.
  destruct (mread (HDR + field 8 2 h) (field 4 2 h) buf) as [pub|] eqn:RP; [|discriminate]. cbn [acc bind] in E. apply mread_nlen in RP.
  destruct kd.
  - destruct (N.ltb_spec 0 (field 6 2 h)).
    + destruct (mread (HDR + field 8 2 h + field 4 2 h) (field 6 2 h) buf) as [v|] eqn:RV; [|discriminate]. cbn [acc bind] in E. injection E as <-. cbn [k_par k_pub k_priv].
      exists vl. rewrite RP. split; auto. intros v' X. injection X as <-. apply mread_nlen in RV. rewrite RV.
      destruct (N.eqb_spec (field 6 2 h) 0); [lia|]. destruct (N.eqb_spec (field 6 2 h) (vl mod 65536)); auto. discriminate.
    + injection E as <-. cbn [k_par k_pub k_priv]. exists vl. rewrite RP. split; auto. intros v' X. discriminate.
  - injection E as <-. cbn [k_par k_pub k_priv]. exists vl. rewrite RP. split; auto. intros v' X. discriminate.
Qed.
Lemma load_sized kd sl k off v : load_priv kd sl = Val (k, off, v) ->
  tab kd (k_par k) = Some (nlen (k_pub k), nlen v) /\ exists h, mread 0 HDR (s_buf sl) = Some h /\ field 0 4 h = magic_of kd.
Proof.
  unfold StatefulModel.load_priv. destruct (deserialize kd (s_buf sl) (s_len sl)) as [k0|rc|] eqn:D; cbn [bind]; [|discriminate|discriminate].
  destruct (deserialize_sized _ _ _ _ D) as ((vl & T & _) & M). destruct (priv_off (s_buf sl)) as [o|rc|]; cbn [bind]; [|discriminate|discriminate].
  rewrite T. unfold read_cb. destruct (s_len sl <? o + vl); cbn [bind]; [discriminate|]. destruct (mread o vl (s_buf sl)) as [w|] eqn:R; cbn [acc bind]; [|discriminate].
  intros E. injection E as <- <- <-. apply mread_nlen in R. rewrite R, T. auto.
Qed.
End Lib.

Lemma sign_ext tab lib1 lib2 cap kd :
  (forall par pub v msg, tab kd par = Some (nlen pub, nlen v) -> lib1 kd par pub v msg = lib2 kd par pub v msg) ->
  forall dma nv msg sl stored, sign tab lib1 cap kd dma nv msg sl stored = sign tab lib2 cap kd dma nv msg sl stored.
Proof.
  intros A dma nv msg sl stored. unfold sign. destruct (load_priv tab kd sl) as [[[k off] v]|rc|] eqn:L; auto.
  destruct (negb (is_ok dma)); auto. apply (load_sized tab lib1 (fun _ _ _ => 0)) in L. destruct L as [T _]. rewrite (A _ _ _ _ T). reflexivity.
Qed.
Lemma left_ext tab left1 left2 kd :
  (forall par pl vl, tab kd par = Some (pl, vl) -> vl < 65536) ->
  (forall par v, (exists pl, tab kd par = Some (pl, nlen v)) -> left1 kd par v = left2 kd par v) ->
  forall sl, sigs_left tab left1 kd sl = sigs_left tab left2 kd sl.
Proof.
  intros B A sl. unfold sigs_left. destruct kd.
  - destruct (deserialize tab Lms (s_buf sl) (s_len sl)) as [k|rc|] eqn:D; cbn [bind]; auto. apply (deserialize_sized tab (fun _ _ _ _ _ => None) left1) in D. destruct D as ((vl & T & P) & _).
    destruct (k_priv k) as [v|] eqn:K.
    + rewrite A; auto. exists (nlen (k_pub k)). rewrite (P v eq_refl), N.mod_small; auto. eapply B; eauto.
    + rewrite T. rewrite A; auto. exists (nlen (k_pub k)). unfold nlen at 2. rewrite repeat_length, N2Nat.id. auto.
  - destruct (load_priv tab Xmss sl) as [[[k off] v]|rc|] eqn:L; cbn [bind]; auto. apply (load_sized tab (fun _ _ _ _ _ => None) left1) in L. destruct L as [T _]. cbn [fst snd]. rewrite A; eauto.
Qed.
