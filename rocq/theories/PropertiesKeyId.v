(** Property C14: translation between client key ids and server key ids.

    [from_client K ty client req] and [to_client K k] are wh_KeyId_TranslateFromClient
    and wh_KeyId_TranslateToClient under the build settings [K] (KeyId.v).  A
    client id is an 8-bit number with a global flag (bit 8), a wrapped flag
    (bit 9) and a hardware flag (bit 10). *)
From Verif Require Import Base Flags KeyId.
Local Open Scope N_scope.

Definition flag_global (req : N) : bool := N.testbit req 8.
Definition flag_wrapped (req : N) : bool := N.testbit req 9.
Definition flag_hw (req : N) : bool := N.testbit req 10.

(** What a client id means under [K]: the number, whether the key is global, and
    the kind of key, where the hardware flag wins over the wrapped flag. *)
Definition means_global (K : kcfg) (req : N) : bool := k_global K && flag_global req.
Definition means_kind (K : kcfg) (ty req : N) : N :=
  if k_hw K && flag_hw req then KT_HW else if k_wrap K && flag_wrapped req then KT_WRAPPED else ty.

Lemma from_client_mk K ty client req : from_client K ty client req =
  mk_keyid (means_kind K ty req) (if means_global K req then 0 else client) (N.land req 255).
Proof.
  unfold from_client, means_kind, means_global, flag_global, flag_wrapped, flag_hw.
  change CF_GLOBAL with (2 ^ 8). change CF_WRAPPED with (2 ^ 9). change CF_HW with (2 ^ 10).
  rewrite !has_pow2. reflexivity.
Qed.
Lemma kind_lt K ty req : ty < 16 -> means_kind K ty req < 16.
Proof. unfold means_kind, KT_HW, KT_WRAPPED. destruct (_ && _); [lia|]. destruct (_ && _); lia. Qed.

(** ** Two ids collide exactly when they mean the same key. *)
Theorem C14_collision_iff : forall K ty c1 c2 r1 r2,
  ty < 16 -> 1 <= c1 <= 15 -> 1 <= c2 <= 15 ->
  (from_client K ty c1 r1 = from_client K ty c2 r2 <->
   r1 mod 256 = r2 mod 256 /\ means_kind K ty r1 = means_kind K ty r2 /\
   means_global K r1 = means_global K r2 /\ (means_global K r1 = false -> c1 = c2)).
Proof.
  intros K ty c1 c2 r1 r2 HT H1 H2. rewrite !from_client_mk.
  rewrite mk_inj by (try apply kind_lt; auto; destruct (means_global K _); lia).
  rewrite !low8, !N.mod_mod by discriminate.
  destruct (means_global K r1), (means_global K r2); intuition (try congruence; try lia).
Qed.
Print Assumptions C14_collision_iff.

(** ** Round trip of a client id. *)
Theorem C14_client_round_trip : forall K client req,
  1 <= client <= 15 -> req < 2048 ->
  (flag_global req = true -> k_global K = true) ->
  (flag_wrapped req = true -> k_wrap K = true) ->
  (flag_hw req = true -> k_hw K = true /\ flag_wrapped req = false) ->
  to_client K (from_client K KT_CRYPTO client req) = req.
Proof.
  intros K client req HC HR HG HW HH.
  assert (E : req = req mod 256 + (if flag_global req then 256 else 0) +
     (if flag_wrapped req then 512 else 0) + (if flag_hw req then 1024 else 0)).
  { unfold flag_global, flag_wrapped, flag_hw.
    rewrite !N.testbit_eqb. change (2 ^ 8) with 256. change (2 ^ 9) with 512. change (2 ^ 10) with 1024.
    assert (D1 : req / 512 = req / 256 / 2) by (rewrite N.div_div by discriminate; reflexivity).
    assert (D2 : req / 1024 = req / 256 / 2 / 2) by (rewrite !N.div_div by discriminate; reflexivity).
    rewrite D1, D2. assert (L : req / 256 < 8) by (apply N.div_lt_upper_bound; lia).
    pose proof (N.div_mod req 256 ltac:(discriminate)) as DM. revert L DM.
    generalize (req / 256), (req mod 256). intros q m L DM.
    assert (Q : q = 0 \/ q = 1 \/ q = 2 \/ q = 3 \/ q = 4 \/ q = 5 \/ q = 6 \/ q = 7) by lia.
    destruct Q as [->|[->|[->|[->|[->|[->|[->| ->]]]]]]];
      repeat match goal with |- context [N.eqb ?a ?b] => let v := eval vm_compute in (N.eqb a b) in change (N.eqb a b) with v end;
      cbv iota; lia. }
  rewrite from_client_mk. unfold to_client.
  rewrite mk_type, mk_user, mk_id by (try (apply kind_lt; reflexivity); destruct (means_global K req); lia).
  rewrite low8, N.mod_mod by discriminate.
  assert (LM : req mod 256 < 256) by (apply N.mod_lt; discriminate).
  assert (OR : forall a b n, b = 2 ^ n -> a < 2 ^ n -> N.lor a b = a + b).
  { intros a b n -> L. rewrite N.lor_comm. replace (2 ^ n) with (N.shiftl 1 n) at 1 by (rewrite N.shiftl_mul_pow2; lia).
    rewrite lor_add by auto. lia. }
  unfold means_kind, means_global in *.
  destruct (flag_global req) eqn:FG; [rewrite (HG eq_refl)|rewrite Bool.andb_false_r]; cbn [andb];
  destruct (flag_wrapped req) eqn:FW; [rewrite (HW eq_refl)|rewrite Bool.andb_false_r|rewrite (HW eq_refl)|rewrite Bool.andb_false_r]; cbn [andb];
  (destruct (flag_hw req) eqn:FH; [destruct (HH eq_refl) as [-> ?]; try discriminate|rewrite Bool.andb_false_r]); cbn [andb N.eqb];
  replace (client =? 0) with false by (symmetry; apply N.eqb_neq; lia);
  rewrite ?Bool.andb_false_r, ?Bool.andb_true_r; cbn;
  unfold CF_GLOBAL, CF_WRAPPED, CF_HW;
  repeat first [rewrite (OR _ 256 8) by (reflexivity || lia)
               |rewrite (OR _ 512 9) by (reflexivity || (change (2 ^ 9) with 512; lia))
               |rewrite (OR _ 1024 10) by (reflexivity || (change (2 ^ 10) with 1024; lia))]; try lia.
  all: repeat match goal with |- context [if ?b then _ else _] => destruct b eqn:?; try lia end.
Qed.
Print Assumptions C14_client_round_trip.

(** ** Round trip of a server id that belongs to the client or is global. *)
Theorem C14_server_round_trip : forall K client k,
  1 <= client <= 15 -> k < 65536 ->
  kid_type k = KT_CRYPTO \/ (kid_type k = KT_WRAPPED /\ k_wrap K = true) \/ (kid_type k = KT_HW /\ k_hw K = true) ->
  kid_user k = client \/ (kid_user k = 0 /\ k_global K = true) ->
  from_client K KT_CRYPTO client (to_client K k) = k.
Proof.
  intros K client k HC HK HT HU.
  set (g := k_global K && N.eqb (kid_user k) 0). set (w := k_wrap K && N.eqb (kid_type k) KT_WRAPPED).
  set (h := k_hw K && N.eqb (kid_type k) KT_HW).
  assert (E : to_client K k = kid_id k + (if g then 256 else 0) + (if w then 512 else 0) + (if h then 1024 else 0)).
  { unfold to_client. fold g w h.
    assert (L : kid_id k < 256) by (rewrite id_arith; apply N.mod_lt; discriminate).
    assert (OR : forall a b n, b = 2 ^ n -> a < 2 ^ n -> N.lor a b = a + b).
    { intros a b n -> L'. rewrite N.lor_comm. replace (2 ^ n) with (N.shiftl 1 n) at 1 by (rewrite N.shiftl_mul_pow2; lia).
      rewrite lor_add by auto. lia. }
    unfold CF_GLOBAL, CF_WRAPPED, CF_HW. destruct g, w, h;
    repeat first [rewrite (OR _ 256 8) by (reflexivity || lia)
                 |rewrite (OR _ 512 9) by (reflexivity || (change (2 ^ 9) with 512; lia))
                 |rewrite (OR _ 1024 10) by (reflexivity || (change (2 ^ 10) with 1024; lia))]; lia. }
  assert (LI : kid_id k < 256) by (rewrite id_arith; apply N.mod_lt; discriminate).
  assert (WH : w && h = false).
  { unfold w, h. destruct (N.eqb_spec (kid_type k) KT_WRAPPED) as [->|]; [|rewrite Bool.andb_false_r; reflexivity].
    cbn. rewrite !Bool.andb_false_r. reflexivity. }
  assert (BITS : forall b c d i, i < 256 ->
     let r := i + (if b : bool then 256 else 0) + (if c : bool then 512 else 0) + (if d : bool then 1024 else 0) in
     N.testbit r 8 = b /\ N.testbit r 9 = c /\ N.testbit r 10 = d /\ r mod 256 = i).
  { intros b c d i L r. set (q := (if b then 1 else 0) + (if c then 2 else 0) + (if d then 4 else 0)).
    assert (RE : r = i + q * 256) by (unfold r, q; destruct b, c, d; lia).
    assert (DQ : r / 256 = q). { rewrite RE, N.div_add by discriminate. rewrite N.div_small by auto. lia. }
    assert (D1 : r / 512 = q / 2) by (rewrite <- DQ, N.div_div by discriminate; reflexivity).
    assert (D2 : r / 1024 = q / 4) by (rewrite <- DQ, N.div_div by discriminate; reflexivity).
    rewrite !N.testbit_eqb. change (2 ^ 8) with 256. change (2 ^ 9) with 512. change (2 ^ 10) with 1024.
    rewrite DQ, D1, D2. split; [|split; [|split]]; try (unfold q; destruct b, c, d; reflexivity).
    rewrite RE, N.mod_add by discriminate. apply N.mod_small; auto. }
  rewrite from_client_mk. unfold means_kind, means_global, flag_global, flag_wrapped, flag_hw.
  rewrite E. destruct (BITS g w h (kid_id k) LI) as (B1 & B2 & B3 & B4). cbv zeta in *. rewrite B1, B2, B3, low8, B4.
  assert (KE : k = mk_keyid (kid_type k) (kid_user k) (kid_id k)).
  { rewrite mk_arith, type_arith, user_arith, id_arith, !N.mod_mod by discriminate.
    assert (k / 4096 < 16) by (apply N.div_lt_upper_bound; lia). rewrite (N.mod_small (k / 4096)) by auto.
    replace (k / 4096) with (k / 256 / 16) by (rewrite N.div_div by discriminate; reflexivity).
    pose proof (N.div_mod k 256 ltac:(discriminate)). pose proof (N.div_mod (k / 256) 16 ltac:(discriminate)). lia. }
  transitivity (mk_keyid (kid_type k) (kid_user k) (kid_id k)); [|symmetry; exact KE]. f_equal.
  - unfold w, h. destruct HT as [->|[[-> ->]|[-> ->]]]; cbn; rewrite ?Bool.andb_false_r; reflexivity.
  - unfold g. destruct HU as [->|[-> ->]]; [|reflexivity].
    replace (client =? 0) with false by (symmetry; apply N.eqb_neq; lia). rewrite !Bool.andb_false_r. reflexivity.
Qed.
Print Assumptions C14_server_round_trip.

(** ** Isolation: ids of two different clients never coincide unless global. *)
Theorem C14_clients_disjoint : forall K ty c1 c2 r1 r2,
  ty < 16 -> 1 <= c1 <= 15 -> 1 <= c2 <= 15 -> c1 <> c2 ->
  from_client K ty c1 r1 = from_client K ty c2 r2 ->
  kid_user (from_client K ty c1 r1) = 0 /\ flag_global r1 = true /\ flag_global r2 = true.
Proof.
  intros K ty c1 c2 r1 r2 HT H1 H2 NE E. pose proof (proj1 (C14_collision_iff K ty c1 c2 r1 r2 HT H1 H2) E) as (_ & _ & G & N).
  rewrite from_client_mk. destruct (means_global K r1) eqn:G1; [|destruct NE; auto].
  rewrite mk_user by lia. unfold means_global in *. symmetry in G.
  apply andb_prop in G1 as [_ G1]. apply andb_prop in G as [_ G]. auto.
Qed.
Print Assumptions C14_clients_disjoint.

(** Concrete: client 3 names its wrapped key 7 and the global key 7. *)
Definition Kall : kcfg := mkKcfg true true true.
Example C14_case :
  from_client Kall KT_CRYPTO 3 519 = mk_keyid KT_WRAPPED 3 7 /\
  from_client Kall KT_CRYPTO 3 263 = mk_keyid KT_CRYPTO 0 7 /\
  to_client Kall (mk_keyid KT_WRAPPED 3 7) = 519 /\
  from_client Kall KT_CRYPTO 3 263 = from_client Kall KT_CRYPTO 5 263 /\
  from_client Kall KT_CRYPTO 3 7 <> from_client Kall KT_CRYPTO 5 7.
Proof. vm_compute. repeat split; congruence. Qed.

(** Outside those conditions ids do alias: a client id above 15 (which the
    server refuses at INIT) lands on another client, and undefined high bits of
    a request are ignored. *)
Example C14_alias_cases :
  from_client Kall KT_CRYPTO 17 7 = from_client Kall KT_CRYPTO 1 7 /\
  from_client Kall KT_CRYPTO 1 2055 = from_client Kall KT_CRYPTO 1 7.
Proof. vm_compute. split; reflexivity. Qed.
