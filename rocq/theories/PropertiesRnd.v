(** C91: random bytes from the server. *)
From Verif Require Import Base NvmSpec Flags Store EndianModel KdfModel EndianProof AuthCodec NvcModel NvcSpec NvcProof RndModel RndSpec RndProof.
From Coq Require Import Sorted.

(** Settings of the examples: a generator that counts, a client with 20-byte and
    a server with 19-byte packets (4 and 3 bytes of data), of different byte
    order. *)
Definition cnt (i : nat) : N := N.of_nat i.
Definition calm : rlink := mkRl 0 0 (repeat 170%N 20) 0 0.
Definition exR (size : nat) (E : nat -> rlink) (out : list N) := rng_call cnt 20 19 true false 1 size E 100 out.

(** ** All exchanges go well: the caller's buffer holds the next bytes of the
    generator, as many as asked for, whatever the two packet sizes and byte
    orders; nothing else is written, and the generator has moved by as much. *)
Theorem C91_call : forall g CD SD sb cb aff size E pos out,
  (N.of_nat CD < 65536)%N -> 16 < CD -> 16 < SD -> (aff < 4294967296)%N -> (forall k, smooth (E k)) -> size <= length out ->
  rng_call g CD SD sb cb aff size E pos out = ((OK, map g (seq pos size) ++ skipn size out), pos + size).
Proof.
  intros g CD SD sb cb aff size E pos out HC C1 S1 HA HE HL. unfold rng_call. rewrite loop_full; auto; [|unfold CAP; lia].
  unfold put. rewrite seq_length. reflexivity.
Qed.
Print Assumptions C91_call.
Example C91_example : exR 8 (fun _ => calm) (repeat 0%N 10) = ((OK, [100; 101; 102; 103; 104; 105; 106; 107; 0; 0]%N), 108).
Proof. vm_compute. reflexivity. Qed.
Example C91_example_meets : forall k : nat, smooth ((fun _ => calm) k).
Proof. intros. repeat split. Qed.

(** ** Whatever happens: the caller's buffer holds bytes the generator made
    during the call, in order and none twice; the call says OK exactly when all
    bytes asked for are there, and nothing past them is written. *)
Theorem C91_any : forall g CD SD sb cb aff size E pos out rc out' q,
  (N.of_nat CD < 65536)%N -> 16 < CD -> (aff < 4294967296)%N -> (forall k, rl_ok (E k)) -> size <= length out ->
  rng_call g CD SD sb cb aff size E pos out = ((rc, out'), q) ->
  exists idx, out' = map g idx ++ skipn (length idx) out /\ StronglySorted lt idx /\ Forall (fun i => pos <= i < q) idx /\
    length idx <= size /\ (rc = OK <-> length idx = size).
Proof.
  intros g CD SD sb cb aff size E pos out rc out' q HC C1 HA HE HL X.
  destruct (loop_draws g CD SD sb cb HC aff E HA HE ltac:(unfold CAP; lia) size 0 size 0 pos out rc out' q (le_n _) HL X) as (idx & P & (D1 & D2 & _) & LE & OKI).
  exists idx. auto.
Qed.
Print Assumptions C91_any.
Definition rough (k : nat) : rlink := if k =? 2 then mkRl 0 (-7) [] 0 0 else calm.
Example C91_any_example : exR 8 rough (repeat 0%N 10) = (((-7)%Z, [100; 101; 102; 103; 104; 105; 0; 0; 0; 0]%N), 108).
Proof. vm_compute. reflexivity. Qed.

(** A failure is reported as what it was: the code of the exchange that failed. *)
Theorem C91_reason : forall g CD SD sb cb aff size E pos out rc out' q,
  (N.of_nat CD < 65536)%N -> 16 < CD -> 16 < SD -> (aff < 4294967296)%N -> (forall k, rl_ok (E k)) ->
  rng_call g CD SD sb cb aff size E pos out = ((rc, out'), q) -> rc <> OK ->
  exists j, In rc [r_send (E j); r_recv (E j); r_rng (E j)].
Proof. intros. eapply loop_reason; eauto. Qed.
Print Assumptions C91_reason.
(** Packets too small for any data: the call fails and does not hang. *)
Theorem C91_small : forall g CD SD sb cb aff size E pos out, 0 < size ->
  (CD <= 16 -> rng_call g CD SD sb cb aff size E pos out = ((BADARGS, out), pos)) /\
  ((N.of_nat CD < 65536)%N -> 16 < CD -> SD <= 16 -> (aff < 4294967296)%N -> smooth (E 0) ->
   rng_call g CD SD sb cb aff size E pos out = ((ABORTED, out), pos)).
Proof.
  intros g CD SD sb cb aff size E pos out HS. unfold rng_call. destruct size as [|size]; [lia|]. cbn [rng_loop]. change (S size =? 0) with false. cbv iota. split.
  - intros C. unfold CAP. replace (CD - 16) with 0 by lia. change (S size <? 0) with false. reflexivity.
  - intros HC C1 S1 HA (A & B & C). rewrite turn_is; auto; [|unfold CAP; destruct (Nat.ltb_spec (S size) (CD - 16)); lia|unfold rl_ok; rewrite C; apply i32_const].
    rewrite A, B, C. change (is_ok OK) with true. cbn [negb]. cbv zeta. replace (SD - 16) with 0 by lia. rewrite Nat.min_0_r. cbn [Nat.eqb draw seq map app plus length firstn skipn].
    change (is_ok ABORTED) with false. cbv iota. unfold draw. cbn [seq map length app]. rewrite Nat.add_0_r. reflexivity.
Qed.
Print Assumptions C91_small.
(** The loop ends: a turn per byte is enough, more turns change nothing. *)
Theorem C91_ends : forall g CD SD sb cb aff size E pos out n,
  (N.of_nat CD < 65536)%N -> 16 < CD -> (aff < 4294967296)%N -> (forall k, rl_ok (E k)) ->
  rng_loop g CD SD sb cb (size + n) aff 0 size E 0 pos out = rng_call g CD SD sb cb aff size E pos out.
Proof. intros. apply loop_fuel; auto; unfold CAP; lia. Qed.
Print Assumptions C91_ends.

(** Whatever bytes arrive as the answer, the client copies no more than the
    caller has room for and only bytes that arrived after the headers, and a
    failure copies nothing. *)
Theorem C91_response : forall CD cb room p rc bs, rng_response CD cb room p = (rc, bs) ->
  length bs <= room /\ (exists n, bs = firstn n (skipn 16 p) /\ length bs = n) /\ (rc <> OK -> bs = []).
Proof.
  intros CD cb room p rc bs. unfold rng_response. cbv zeta.
  assert (Z0 : forall r, (r, @nil N) = (rc, bs) -> length bs <= room /\ (exists n, bs = firstn n (skipn 16 p) /\ length bs = n) /\ (rc <> OK -> bs = [])).
  { intros r X. injection X as _ <-. split; [cbn; lia|]. split; [exists 0; auto|auto]. }
  destruct (negb (N.eqb (fld 0 (unwire cb R_RNG p)) ALGO_RNG)); [apply Z0|].
  destruct (negb (is_ok (n_rc (fld 1 (unwire cb R_RNG p))))); [apply Z0|].
  set (sz := N.to_nat (fld 3 (unwire cb R_RNG p))).
  destruct (Nat.ltb_spec (length p) 16); [apply Z0|]. destruct (Nat.ltb_spec (length p - 16) sz); [apply Z0|].
  destruct (Nat.ltb_spec (CAP CD) sz); [apply Z0|]. destruct (Nat.ltb_spec room sz); [apply Z0|]. cbn [orb]. intros X. injection X as <- <-.
  unfold rd. assert (L : length (firstn sz (skipn 16 p)) = sz) by (rewrite firstn_length, skipn_length; lia).
  rewrite L. split; [lia|]. split; [exists sz; auto|contradiction].
Qed.
Print Assumptions C91_response.
Example C91_response_example : (* a reply that claims 9 bytes and carries 4 *)
  rng_response 40 false 8 [4;0;0;0; 0;0;0;0; 0;0;0;0; 9;0;0;0; 1;2;3;4]%N = (ABORTED, []) /\
  rng_response 40 false 8 [4;0;0;0; 0;0;0;0; 0;0;0;0; 3;0;0;0; 1;2;3;4]%N = (OK, [1;2;3]%N).
Proof. vm_compute. auto. Qed.

(** ** By DMA: a call that goes through says OK exactly when both address checks
    and the generator did, and then the bytes lie at the caller's address.  In
    every case the memory is either as it was or holds all the bytes there, and
    nothing else in it is touched. *)
Theorem C91_dma : forall g sb cb aff addr size e pos mem,
  0 < size -> (aff < 4294967296)%N -> (N.of_nat size < 4294967296)%N -> (N.of_nat addr < 2 ^ 64)%N ->
  rl_ok (d_link e) -> i32 (d_pre e) -> i32 (d_post e) -> r_send (d_link e) = OK -> r_recv (d_link e) = OK ->
  exists rc reply mem' q, rng_dma_call g sb cb aff addr size e pos mem = (((rc, reply), mem'), q) /\
    (rc = OK <-> d_pre e = OK /\ r_rng (d_link e) = OK /\ d_post e = OK) /\
    (let full := firstn addr mem ++ map g (seq pos size) ++ skipn (addr + size) mem in
     (mem' = mem \/ mem' = full /\ pos + size <= q) /\ (rc = OK -> mem' = full)).
Proof.
  intros g sb cb aff addr size e pos mem H1 H2 H3 H4 H5 H6 H7 S1 S2.
  destruct (dma_is g sb cb aff addr size e pos mem H1 H2 H3 H4 H5 H6 H7 S1) as (rc & body & idx & q & E1 & DR & ALT & FULL & RC & _).
  rewrite S2 in E1. change (is_ok OK) with true in E1. cbv iota in E1.
  exists rc, body, (put g addr idx mem), q. split; [exact E1|]. split; [exact RC|]. cbv zeta.
  assert (PF : put g addr (seq pos size) mem = firstn addr mem ++ map g (seq pos size) ++ skipn (addr + size) mem) by (unfold put; rewrite seq_length; reflexivity).
  split.
  - destruct ALT as [->| ->]; [left; apply put_none|right]. split; [exact PF|]. destruct DR as (_ & F & _). rewrite Forall_forall in F.
    assert (I : In (pos + (size - 1)) (seq pos size)) by (apply in_seq; lia). apply F in I. lia.
  - intros O. rewrite (FULL O). exact PF.
Qed.
Print Assumptions C91_dma.
Definition exD (post : Z) (stack : list N) := rng_dma_call cnt true false 1 2 4 (mkDl calm 0 post stack) 100 (repeat 0%N 8).
Example C91_dma_example : fst (fst (fst (exD 0 (repeat 0%N 16)))) = OK /\ snd (fst (exD 0 (repeat 0%N 16))) = [0; 0; 100; 101; 102; 103; 0; 0]%N /\
  fst (fst (fst (exD (-5) (repeat 0%N 16)))) = (-5)%Z.
Proof. vm_compute. auto. Qed.

(** ** Over any history of calls by any clients, by packet and by DMA, whatever
    fails on the way: no byte of the generator is handed out twice. *)
Theorem C91_history : forall g SD sb vs pos xs q,
  Forall (fun vm => rev_ok (fst vm) /\ place (fst vm) + asked (fst vm) <= length (snd vm)) vs ->
  rev_run g SD sb vs pos = (xs, q) ->
  exists ids,
    Forall2 (fun vm (xi : (Z * list N) * list nat) => snd (fst xi) = put g (place (fst vm)) (snd xi) (snd vm) /\
      length (snd xi) <= asked (fst vm) /\ (fst (fst xi) = OK -> length (snd xi) = asked (fst vm))) vs (combine xs ids) /\
    length ids = length xs /\ NoDup (concat ids) /\ StronglySorted lt (concat ids).
Proof.
  intros g SD sb vs pos xs q H X. destruct (run_draws g SD sb vs pos xs q H X) as (ids & A & B & (C & _)).
  exists ids. split; [exact A|]. split; [exact B|]. split; [|exact C].
  clear -C. induction C as [|x l C IH F]; constructor; auto. intros I. rewrite Forall_forall in F. apply F in I. lia.
Qed.
Print Assumptions C91_history.
Definition exV : list (rev * list N) :=
  [(ByPacket 20 false 1 8 rough, repeat 0%N 8); (ByDma true 2 1 2 (mkDl calm 0 0 []), repeat 0%N 4); (ByPacket 40 true 3 3 (fun _ => calm), repeat 0%N 3)].
Example C91_history_example : rev_run cnt 19 true exV 100 =
  ([((-7)%Z, [100; 101; 102; 103; 104; 105; 0; 0]%N); (OK, [0; 108; 109; 0]%N); (OK, [110; 111; 112]%N)], 113).
Proof. vm_compute. reflexivity. Qed.
Example C91_history_meets : Forall (fun vm => rev_ok (fst vm) /\ place (fst vm) + asked (fst vm) <= length (snd vm)) exV.
Proof.
  assert (I : forall k, rl_ok (rough k)) by (intros k; unfold rl_ok, rough, i32; destruct (k =? 2); cbn; lia).
  assert (J : rl_ok calm) by (unfold rl_ok, i32; cbn; lia). assert (Z0 : i32 0) by (unfold i32; lia).
  unfold exV. apply Forall_cons; [|apply Forall_cons; [|apply Forall_cons; [|apply Forall_nil]]]; cbn [fst snd rev_ok place asked repeat length d_link d_pre d_post];
    (split; [|lia]).
  - split; [lia|]. split; [lia|exact I].
  - split; [lia|]. split; [lia|]. split; [lia|]. auto.
  - split; [lia|]. split; [lia|]. intros _. exact J.
Qed.

(** ** What is false: that the answer to a DMA call is made of the call and its
    result.  Two servers that differ only in what an earlier call left on the
    stack answer differently: the 16 bytes of the status structure are sent as
    they lie there. *)
Theorem C91_dma_reply_refuted : ~ (forall g sb cb aff addr size l pre post s1 s2 pos mem, length s1 = 16 -> length s2 = 16 ->
  rng_dma_call g sb cb aff addr size (mkDl l pre post s1) pos mem = rng_dma_call g sb cb aff addr size (mkDl l pre post s2) pos mem).
Proof.
  intros H. pose proof (H cnt false false 1%N 2 4 calm 0%Z 0%Z (repeat 0%N 16) (repeat 7%N 16) 100 (repeat 0%N 8) eq_refl eq_refl) as X.
  apply (f_equal (fun r => snd (fst (fst r)))) in X. vm_compute in X. discriminate X.
Qed.
Print Assumptions C91_dma_reply_refuted.
(** What does hold: the stack decides nothing but those bytes. *)
Theorem C91_dma_reply : forall g sb cb aff addr size l pre post s1 s2 pos mem,
  0 < size -> (aff < 4294967296)%N -> (N.of_nat size < 4294967296)%N -> (N.of_nat addr < 2 ^ 64)%N ->
  rl_ok l -> i32 pre -> i32 post ->
  let a := rng_dma_call g sb cb aff addr size (mkDl l pre post s1) pos mem in
  let b := rng_dma_call g sb cb aff addr size (mkDl l pre post s2) pos mem in
  fst (fst (fst a)) = fst (fst (fst b)) /\ snd (fst a) = snd (fst b) /\ snd a = snd b /\
  firstn 12 (snd (fst (fst a))) = firstn 12 (snd (fst (fst b))) /\
  (fst (fst (fst a)) <> OK -> snd (fst (fst a)) = snd (fst (fst b))).
Proof.
  intros g sb cb aff addr size l pre post s1 s2 pos mem H1 H2 H3 H4 H5 H6 H7 a b. unfold a, b.
  destruct (is_ok (r_send l)) eqn:KS.
  2:{ unfold rng_dma_call. cbn [d_link]. rewrite KS. destruct (size =? 0); cbn; auto. }
  apply is_ok_iff in KS. rewrite !dma_eq by auto. unfold d_last. cbn [d_link d_pre d_post d_stack fst snd].
  split; [reflexivity|]. split; [reflexivity|]. split; [reflexivity|].
  destruct (is_ok (r_recv l)) eqn:KR; [|split; reflexivity].
  set (rc := if negb (is_ok pre) then pre else if negb (is_ok (r_rng l)) then r_rng l else post). split.
  - rewrite !first_exact by (rewrite give_length; reflexivity). reflexivity.
  - intros N1. destruct (is_ok rc) eqn:K; [|reflexivity]. apply is_ok_iff in K. contradiction.
Qed.
Print Assumptions C91_dma_reply.
