(** C85, C86: NVM calls from the caller's arguments to the store and back. *)
From Verif Require Import Base NvmSpec Flags Store EndianModel EndianProof KdfModel KsReq NvmReqModel NvcModel NvcSpec NvcProof NvmReqProof.

(** Settings of the examples: 64-byte packets, a big-endian server with id 9 and
    a little-endian client with id 5. *)
Definition exN (c : ncall) (L : nlink) (s : store) := call 64 true true 9 false 5 c (mkEnv 0 0 0 0 [400; 3; 800; 7]%N) L [] s.
Definition goodL : nlink := mkNl 0 0 (repeat 170%N 64).
Definition ob (id fl : N) (d : list N) : object := (mkMeta id 7 fl (N.of_nat (length d)) (padded [65; 66]%N), d).
Definition exS : store := [ob 3 0 [1; 2; 3; 4; 5]; ob 8 F_NONEXPORTABLE [9; 9]]%N.

(** ** C85: a call that is sent is carried out once, with the caller's
    arguments, whatever the byte orders; its answer is the one of the store. *)
Theorem C85_call : forall DL build sb sid cb cid c e L mem s,
  4 <= DL -> by_packet c -> ~ too_big DL c -> args_ok sid cid c -> listable c s -> env_ok e -> store_ok s ->
  k_send L = OK -> k_recv L = OK ->
  call DL build sb sid cb cid c e L mem s =
  let '(rc, nums, data, s') := does DL build sb sid cid c e s in (Answered rc nums data, mem, s').
Proof. intros. apply call_does; auto. Qed.
Print Assumptions C85_call.
Example C85_example :
  exN (NAdd 300 1 (F_TRUSTED + 2) [65%N] [10; 11; 12]%N) goodL exS
    = (Answered OK [] [], [], exS ++ [(mkMeta 300 1 2 3 (padded [65%N]), [10; 11; 12]%N)]) /\
  fst (fst (exN (NRead 3 1 60) goodL exS)) = Answered OK [4%N] [2; 3; 4; 5]%N /\
  fst (fst (exN (NRead 3 1 61) goodL exS)) = Answered ABORTED [0%N] [] /\
  fst (fst (exN (NRead 8 0 2) goodL exS)) = Answered ACCESS [0%N] [] /\
  fst (fst (exN (NMeta 3 2) goodL exS)) = Answered OK [3; 7; 0; 5]%N [65; 66]%N /\
  fst (fst (exN (NList 0 0 3) goodL exS)) = Answered OK [1; 8]%N [] /\
  fst (fst (exN NAvail goodL exS)) = Answered OK [400; 3; 800; 7]%N [] /\
  fst (fst (exN NInit goodL exS)) = Answered OK [5; 9]%N [] /\
  exN (NDestroy [3%N]) goodL exS = (Answered OK [] [], [], [ob 8 F_NONEXPORTABLE [9; 9]%N]).
Proof. vm_compute. repeat split. Qed.
Example C85_example_meets : store_ok exS /\ env_ok (mkEnv 0 0 0 0 [400; 3; 800; 7]%N) /\ listable (NList 0 0 3) exS /\
  args_ok 9 5 (NAdd 300 1 (F_TRUSTED + 2) [65%N] [10; 11; 12]%N) /\ ~ too_big 64 (NAdd 300 1 (F_TRUSTED + 2) [65%N] [10; 11; 12]%N).
Proof.
  split; [|split; [|split; [|split]]].
  - repeat constructor; vm_compute; auto.
  - unfold env_ok, i32. cbn. conjs; try lia. exists 400%N, 3%N, 800%N, 7%N. repeat split.
  - vm_compute. auto.
  - cbn. conjs; try reflexivity. repeat constructor.
  - cbn. lia.
Qed.

(** Too much for a packet: refused, nothing sent. *)
Theorem C85_refused : forall DL build sb sid cb cid c e L mem s,
  too_big DL c -> call DL build sb sid cb cid c e L mem s = (Failed BADARGS, mem, s).
Proof. intros. apply call_refused; auto. Qed.
Print Assumptions C85_refused.
Example C85_refused_example : too_big 64 (NAdd 1 0 0 [] (repeat 0%N 33)) /\ ~ too_big 64 (NAdd 1 0 0 [] (repeat 0%N 32)) /\
  too_big 64 (NAdd 1 0 0 (repeat 0%N 25) []) /\ too_big 64 (NDestroy (repeat 0%N 20)).
Proof. vm_compute. lia. Qed.

(** Not sent: nothing happens and no output is written. *)
Theorem C85_unsent : forall DL build sb sid cb cid c e L mem s,
  ~ too_big DL c -> k_send L <> OK ->
  call DL build sb sid cb cid c e L mem s = (Failed (k_send L), mem, s).
Proof. intros. apply call_unsent; auto. Qed.
Print Assumptions C85_unsent.

(** Sent but no reply: the caller is told so, with no output written; the call
    was carried out all the same. *)
Theorem C85_unheard : forall DL build sb sid cb cid c e L mem s,
  4 <= DL -> by_packet c -> ~ too_big DL c -> args_ok sid cid c -> listable c s -> env_ok e -> store_ok s ->
  k_send L = OK -> k_recv L <> OK ->
  call DL build sb sid cb cid c e L mem s =
  let '(_, _, _, s') := does DL build sb sid cid c e s in (Failed (k_recv L), mem, s').
Proof.
  intros. pose proof (C85_call DL build sb sid cb cid c e (mkNl OK OK (k_old L)) mem s) as E.
  destruct (does DL build sb sid cid c e s) as [[[rc nums] data] s']. eapply call_unheard; eauto; apply E; auto.
Qed.
Print Assumptions C85_unheard.
Example C85_unheard_example : exN (NDestroy [3%N]) (mkNl 0 (-5) []) exS = (Failed (-5), [], [ob 8 F_NONEXPORTABLE [9; 9]%N]).
Proof. vm_compute. reflexivity. Qed.

(** Storing by DMA: the metadata structure and the data lie in the caller's
    memory.  Between machines of one byte order it does what the call by packet
    does, after the address checks. *)
Theorem C85_add_dma_partial : forall DL build sb sid cid id ac fl len0 label data mp dp e L mem s,
  args_ok sid cid (NAdd id ac fl label data) -> length label = 24 -> env_ok e ->
  args_ok sid cid (NAddDma mp dp (length data)) -> 0 < mp -> (len0 < 65536)%N ->
  firstn 32 (skipn mp mem) = wire sb [(2, id); (2, ac); (2, fl); (2, len0)] ++ label ->
  rd dp (length data) mem = data -> e_dma1 e = OK -> e_dma2 e = OK -> k_send L = OK -> k_recv L = OK ->
  call DL build sb sid sb cid (NAddDma mp dp (length data)) e L mem s =
  let '(rc, s') := store_it build sb e (mkMeta id ac fl 0 label) data s in (Answered rc [] [], mem, s').
Proof.
  intros DL build sb sid cid id ac fl len0 label data mp dp e L mem s (A1 & A2 & A3 & A4 & A5) LL He HA HM HL0 HW HD D1 D2 S1 S2.
  rewrite call_add_dma by auto. unfold add_dma_spec. rewrite D1, D2. change (negb (Z.eqb OK OK)) with false. cbv iota.
  destruct (Nat.eqb_spec mp 0); [lia|]. rewrite HD.
  assert (MA : meta_at sb mp mem = mkMeta id ac fl len0 label).
  { assert (SK : skipn mp mem = wire sb [(2, id); (2, ac); (2, fl); (2, len0)] ++ label ++ skipn 32 (skipn mp mem)).
    { rewrite app_assoc, <- HW. symmetry. apply firstn_skipn. }
    unfold meta_at. set (fs := [(2, id); (2, ac); (2, fl); (2, len0)]) in *. rewrite SK.
    change [2; 2; 2; 2] with (map fst fs). rewrite unwire_wire.
    - unfold fs at 1 2 3 4. cbn [map snd fld nth]. f_equal. unfold rd.
      assert (SS : forall (l : list N) a b, skipn (a + b) l = skipn b (skipn a l)).
      { clear. induction l as [|x l IH]; intros [|a] b; cbn [skipn Nat.add]; auto; try (rewrite ?skipn_nil; auto). }
      rewrite SS, SK. rewrite AuthCodec.skip_exact by (rewrite wire_length; reflexivity). apply AuthCodec.first_exact. auto.
    - unfold fs. repeat constructor; cbn [fst snd]; auto. }
  rewrite MA. unfold store_it. cbn [m_id m_access m_flags m_label].
  destruct (one_time_key build sb data); auto.
Qed.
Print Assumptions C85_add_dma_partial.
Example C85_add_dma_example :
  call 64 true true 9 true 5 (NAddDma 4 40 2) (mkEnv 0 0 0 0 []) goodL
    (repeat 0%N 4 ++ wire true [(2, 300%N); (2, 1%N); (2, 2%N); (2, 0%N)] ++ repeat 65%N 24 ++ repeat 0%N 4 ++ [7; 8]%N) []
  = (Answered OK [] [], repeat 0%N 4 ++ wire true [(2, 300%N); (2, 1%N); (2, 2%N); (2, 0%N)] ++ repeat 65%N 24 ++ repeat 0%N 4 ++ [7; 8]%N,
     [(mkMeta 300 1 2 2 (repeat 65%N 24), [7; 8]%N)]).
Proof. vm_compute. reflexivity. Qed.

(** Between machines of different byte orders it does not: the structure in
    memory is not translated, so the object is stored under another id with
    other flags, and the caller is told that all went well. *)
Theorem C85_add_dma_refuted : exists mem s',
  firstn 32 (skipn 4 mem) = wire false [(2, 300%N); (2, 1%N); (2, F_NONEXPORTABLE); (2, 0%N)] ++ repeat 65%N 24 /\
  call 64 true true 9 false 5 (NAddDma 4 40 2) (mkEnv 0 0 0 0 []) goodL mem [] = (Answered OK [] [], mem, s') /\
  sp_find s' 300 = None /\ exists m, s' = [(m, [7; 8]%N)] /\ m_id m = 11265%N /\ has (m_flags m) F_NONEXPORTABLE = false.
Proof.
  exists (repeat 0%N 4 ++ wire false [(2, 300%N); (2, 1%N); (2, F_NONEXPORTABLE); (2, 0%N)] ++ repeat 65%N 24 ++ repeat 0%N 4 ++ [7; 8]%N).
  eexists. split; [vm_compute; reflexivity|]. split; [vm_compute; reflexivity|]. split; [vm_compute; reflexivity|].
  eexists. split; [reflexivity|]. vm_compute. auto.
Qed.
Print Assumptions C85_add_dma_refuted.

(** Reading by DMA: the bytes go to the caller's memory, at the caller's
    address and nowhere else. *)
Theorem C85_read_dma : forall DL build sb sid cb cid id off len dp e L mem s,
  env_ok e -> store_ok s -> args_ok sid cid (NReadDma id off len dp) -> e_lock e = OK -> e_dma1 e = OK ->
  k_send L = OK -> k_recv L = OK ->
  call DL build sb sid cb cid (NReadDma id off len dp) e L mem s =
  let '(rc, bs) := bytes_of s id off len in
  (Answered rc [] [], firstn dp mem ++ bs ++ skipn (dp + length bs) mem, s).
Proof.
  intros. rewrite call_read_dma by auto. rewrite H2, H3. change (negb (Z.eqb OK OK)) with false. cbv iota. unfold bytes_of.
  destruct (sp_find s id) as [[m d]|]; [|reflexivity]. destruct (length d <=? off); [reflexivity|]. destruct (forbids s id NO_READ); reflexivity.
Qed.
Print Assumptions C85_read_dma.
Example C85_read_dma_example :
  call 64 true true 9 false 5 (NReadDma 3 1 3 2) (mkEnv 0 0 0 0 []) goodL [20; 21; 22; 23; 24; 25]%N exS
  = (Answered OK [] [], [20; 21; 2; 3; 4; 25]%N, exS).
Proof. vm_compute. reflexivity. Qed.

(** Whatever packets arrive - any action, size and bytes, from clients of any
    byte order: protected objects stay as they are, no object becomes trusted,
    and no reply and no client memory depends on the bytes of an object that
    cannot be exported. *)
Theorem C85_packets_kept : forall DL build sb sid ks s id m d,
  has (m_flags m) F_TRUSTED = true \/ has (m_flags m) F_NONMODIFIABLE = true ->
  sp_find s id = Some (m, d) -> sp_find (receive DL build sb sid ks s) id = Some (m, d).
Proof. intros. apply receive_kept; auto. Qed.
Print Assumptions C85_packets_kept.
Theorem C85_packets_trusted : forall DL build sb sid ks s id m d,
  has (m_flags m) F_TRUSTED = true ->
  sp_find (receive DL build sb sid ks s) id = Some (m, d) -> sp_find s id = Some (m, d).
Proof. intros. eapply receive_no_trusted; eauto. Qed.
Print Assumptions C85_packets_trusted.
Theorem C85_packets_silent : forall DL build sb sid ks s1 s2,
  Forall2 (fun o1 o2 => fst o1 = fst o2 /\ length (snd o1) = length (snd o2) /\
             (has (m_flags (fst o1)) F_NONEXPORTABLE = false /\ has (m_flags (fst o1)) F_TRUSTED = false ->
              snd o1 = snd o2)) s1 s2 ->
  replies DL build sb sid ks s1 = replies DL build sb sid ks s2.
Proof.
  intros DL build sb sid ks s1 s2 H. apply replies_same.
  induction H as [|o1 o2 s1 s2 (A & B & D) H IH]; constructor; auto.
  repeat split; auto. unfold secret. intros E. apply Bool.orb_false_elim in E. auto.
Qed.
Print Assumptions C85_packets_silent.
(** A reply fits the packet. *)
Theorem C85_reply_fits : forall DL build sb sid cb a n buf mem e s,
  36 <= DL -> store_ok s -> length (fst (fst (serve DL build sb sid cb a n buf mem e s))) <= DL.
Proof. intros. apply reply_fits; auto. Qed.
Print Assumptions C85_reply_fits.
Definition exP (a : nact) (b : list N) : packet := mkPk false a (length b) (b ++ repeat 0%N 40) [] (mkEnv 0 0 0 0 []).
Example C85_packets_example :
  let s0 := [ob 3 F_NONMODIFIABLE [1]; ob 8 F_NONEXPORTABLE [9; 9]]%N in
  receive 64 true true 9 [exP ADestroy ([1; 0; 3; 0]%N ++ repeat 0%N 36); exP ADestroy ([1; 0; 8; 0]%N ++ repeat 0%N 36)] s0 = [ob 3 F_NONMODIFIABLE [1%N]] /\
  replies 64 true true 9 [exP ARead [8; 0; 0; 0; 2; 0]%N; exP ARead [3; 0; 0; 0; 2; 0]%N; exP ARead [3%N]] s0 =
    [(wire false [(4, rc_n ACCESS)], []); (wire false [(4, rc_n OK)] ++ [1%N], []); (wire false [(4, rc_n ABORTED)], [])].
Proof. vm_compute. split; reflexivity. Qed.

(** An add whose length field does not match its size is answered with OK and
    stores nothing.  No call of the client library sends such a packet. *)
Theorem C85_mismatch_refuted : exists buf,
  serve 64 true false 9 false AAdd 40 buf [] (mkEnv 0 0 0 0 []) [] = (wire false [(4, rc_n OK)], [], []).
Proof. exists ([1; 0; 0; 0; 0; 0; 2; 0]%N ++ repeat 0%N 56). vm_compute. reflexivity. Qed.
Print Assumptions C85_mismatch_refuted.

(** ** C86: what a client stores, every client reads back *)
Theorem C86_read_back : forall DL build sb sid cb cid id ac fl label data e L mem mem' s s1 vs,
  4 <= DL -> store_ok s -> env_ok e -> args_ok sid cid (NAdd id ac fl label data) ->
  call DL build sb sid cb cid (NAdd id ac fl label data) e L mem s = (Answered OK [] [], mem', s1) ->
  Forall (event_ok sid) vs -> Forall (fun v => ~ names sb id v) vs ->
  let s2 := run DL build sb sid vs s1 in
  forall cb2 cid2 e2 L2 mem2, env_ok e2 -> e_lock e2 = OK -> k_send L2 = OK -> k_recv L2 = OK ->
  (forall ll, call DL build sb sid cb2 cid2 (NMeta id ll) e2 L2 mem2 s2 =
     (Answered OK [id; ac; N.ldiff fl F_TRUSTED; N.of_nat (length data)] (firstn ll (padded label)), mem2, s2)) /\
  (forall off len, off < length data -> len <= DL - 4 -> (N.of_nat len < 65536)%N ->
     call DL build sb sid cb2 cid2 (NRead id off len) e2 L2 mem2 s2 =
     (if N.eqb (N.land fl F_NONEXPORTABLE) 0
      then Answered OK [N.of_nat (length (firstn len (skipn off data)))] (firstn len (skipn off data))
      else Answered ACCESS [0%N] [], mem2, s2)) /\
  (forall off len dp, off < length data -> (N.of_nat len < 65536)%N -> (N.of_nat dp < 2 ^ 64)%N -> e_dma1 e2 = OK ->
     N.land fl F_NONEXPORTABLE = 0%N ->
     call DL build sb sid cb2 cid2 (NReadDma id off len dp) e2 L2 mem2 s2 =
     (Answered OK [] [], wr dp (firstn len (skipn off data)) mem2, s2)).
Proof.
  intros DL build sb sid cb cid id ac fl label data e L mem mem' s s1 vs HD HS He HA HC HV HN s2 cb2 cid2 e2 L2 mem2 He2 HL2 K1 K2.
  destruct (add_found DL build sb sid cb cid id ac fl label data e L mem s mem' s1 HD He HA HC) as [LB F1].
  assert (S1 : store_ok s1).
  { pose proof (event_step DL build sb sid (mkEv cb cid (NAdd id ac fl label data) e L mem) s 0 HD) as X.
    cbn [v_big v_id v_call v_env v_link v_mem] in X. rewrite HC in X. apply X; auto. unfold event_ok. cbn. auto. }
  assert (S2 : store_ok s2) by (apply run_ok; auto).
  assert (F2 : sp_find s2 id = Some (mkMeta id ac (N.ldiff fl F_SERVER_ONLY) (N.of_nat (length data)) (padded label), data))
    by (unfold s2; rewrite run_find; auto).
  destruct HA as (A1 & A2 & A3 & A4 & A5). clearbody s2. pose proof (flag_read fl s2 id _ _ F2 eq_refl) as FR. split; [|split].
  - intros ll. rewrite call_meta by auto. cbn [does]. rewrite HL2, F2. reflexivity.
  - intros off len Ho Hl Hl2. rewrite call_read by (auto; cbn; repeat split; auto; lia). cbn [does]. rewrite HL2. change (negb (Z.eqb OK OK)) with false. cbv iota.
    destruct (Nat.ltb_spec (DL - 4) len); [lia|]. unfold bytes_of. rewrite F2, FR. destruct (Nat.leb_spec (length data) off); [lia|].
    destruct (N.eqb (N.land fl F_NONEXPORTABLE) 0); cbn [negb]; reflexivity.
  - intros off len dp Ho Hl2 Hdp Hd1 HF. rewrite call_read_dma by (auto; cbn; repeat split; auto; lia). rewrite HL2, F2, Hd1.
    change (negb (Z.eqb OK OK)) with false. cbv iota. unfold bytes_of. rewrite F2, FR, HF. destruct (Nat.leb_spec (length data) off); [lia|]. reflexivity.
Qed.
Print Assumptions C86_read_back.
Example C86_example :
  let add := NAdd 300 1 F_TRUSTED [65%N] [10; 11; 12]%N in
  let s1 := snd (exN add goodL exS) in
  let vs := [mkEv true 6 (NDestroy [3; 8]%N) (mkEnv 0 0 0 0 [0; 0; 0; 0]%N) goodL []; mkEv false 7 (NAdd 301 0 0 [] [1%N]) (mkEnv 0 0 0 0 [0; 0; 0; 0]%N) goodL []] in
  fst (fst (exN add goodL exS)) = Answered OK [] [] /\ map oid (run 64 true true 9 vs s1) = [300; 301]%N /\
  fst (fst (call 64 true true 9 true 8 (NRead 300 1 9) (mkEnv 0 0 0 0 []) goodL [] (run 64 true true 9 vs s1))) = Answered OK [2%N] [11; 12]%N /\
  Forall (fun v => ~ names true 300 v) vs.
Proof. conjs; try (vm_compute; reflexivity). repeat constructor; cbn; intros H; lia. Qed.

(** The whole object, however it is cut: the pieces of a sequence of reads that
    covers it join to the stored bytes. *)
Theorem C86_pieces : forall DL build sb sid cb cid id e L mem s m d ls,
  4 <= DL -> store_ok s -> env_ok e -> e_lock e = OK -> k_send L = OK -> k_recv L = OK -> (id < 65536)%N ->
  sp_find s id = Some (m, d) -> has (m_flags m) F_TRUSTED = false -> has (m_flags m) F_NONEXPORTABLE = false ->
  Forall (fun n => 0 < n <= DL - 4 /\ (N.of_nat n < 65536)%N) ls -> fold_right Nat.add 0 ls = length d ->
  concat (pieces (fun off n => fst (fst (call DL build sb sid cb cid (NRead id off n) e L mem s))) 0 ls) = d.
Proof.
  intros DL build sb sid cb cid id e L mem s m d ls HD HS He HL K1 K2 HI F T X HP HSum.
  rewrite (pieces_all d); auto.
  - intros o n HIn Ho. rewrite Forall_forall in HP. destruct (HP n HIn) as [P1 P2].
    destruct (find_ok _ _ _ _ HS F) as [[((_ & _ & _ & B) & _) ML] _]. cbn [fst snd] in *.
    rewrite call_read by (auto; cbn; repeat split; auto; lia). cbn [does]. rewrite HL. change (negb (Z.eqb OK OK)) with false. cbv iota.
    destruct (Nat.ltb_spec (DL - 4) n); [lia|]. unfold bytes_of. rewrite F. destruct (Nat.leb_spec (length d) o); [lia|].
    rewrite forbids_has, F. change NO_READ with (N.lor F_TRUSTED F_NONEXPORTABLE). rewrite has_two, T, X. cbn [orb fst]. eauto.
  - apply Forall_forall. intros n I. rewrite Forall_forall in HP. apply HP in I. lia.
Qed.
Print Assumptions C86_pieces.
Example C86_pieces_example :
  pieces (fun off n => fst (fst (exN (NRead 3 off n) goodL exS))) 0 [2; 2; 1] = [[1; 2]; [3; 4]; [5]]%N.
Proof. vm_compute. reflexivity. Qed.

(** Listing from 0, each time from the id just given, names every object once,
    oldest first. *)
Theorem C86_listing : forall DL build sb sid cb cid ac fl e L mem s fuel,
  4 <= DL -> store_ok s -> env_ok e -> e_lock e = OK -> k_send L = OK -> k_recv L = OK -> (ac < 65536)%N -> (fl < 65536)%N ->
  sp_find s 0 = None -> (N.of_nat (length s) < 65536)%N -> NoDup (map oid s) -> length s < fuel ->
  listing (fun start => fst (fst (call DL build sb sid cb cid (NList ac fl start) e L mem s))) fuel 0 = map oid s.
Proof. intros. apply (listing_all DL build sb sid cb cid ac fl e L mem s); auto. Qed.
Print Assumptions C86_listing.
Example C86_listing_example : listing (fun start => fst (fst (exN (NList 0 0 start) goodL exS))) 9 0 = [3; 8]%N.
Proof. vm_compute. reflexivity. Qed.

(** The access and the flags given to a listing select nothing: the answer is
    the same for all of them, although the interface says it counts the objects
    that match. *)
Theorem C86_filter_refuted : forall DL build sb sid cb cid ac fl ac' fl' start e L mem s,
  (ac < 65536)%N -> (fl < 65536)%N -> (ac' < 65536)%N -> (fl' < 65536)%N -> (start < 65536)%N ->
  call DL build sb sid cb cid (NList ac fl start) e L mem s = call DL build sb sid cb cid (NList ac' fl' start) e L mem s.
Proof.
  intros DL build sb sid cb cid ac fl ac' fl' start e L mem s A B A' B' C. unfold call. cbn [request action]. destruct (negb _); auto.
  rewrite !wire_length. cbn [map fst sum fold_right Nat.add]. unfold serve, early. cbn [parse Nat.eqb reply].
  change W_LIST with (map fst [(2, ac); (2, fl); (2, start)]) at 1. rewrite take_wire by fits.
  change W_LIST with (map fst [(2, ac'); (2, fl'); (2, start)]). rewrite take_wire by fits. reflexivity.
Qed.
Print Assumptions C86_filter_refuted.
Example C86_filter_example :
  fst (fst (exN (NList 1 F_NONEXPORTABLE 0) goodL exS)) = Answered OK [2; 3]%N [] /\ sp_find exS 3 = Some (ob 3 0 [1; 2; 3; 4; 5]%N).
Proof. vm_compute. split; reflexivity. Qed.

(** Destroyed means gone: after a destroy that succeeded, every client gets
    NOTFOUND for every id named, until someone stores under it. *)
Theorem C86_destroyed : forall DL build sb sid cb cid ids e L mem mem' s s1 vs id,
  4 <= DL -> store_ok s -> env_ok e -> args_ok sid cid (NDestroy ids) ->
  call DL build sb sid cb cid (NDestroy ids) e L mem s = (Answered OK [] [], mem', s1) -> In id ids ->
  Forall (event_ok sid) vs -> Forall (fun v => ~ names sb id v) vs ->
  let s2 := run DL build sb sid vs s1 in
  forall cb2 cid2 e2 L2 mem2 off len, env_ok e2 -> e_lock e2 = OK -> k_send L2 = OK -> k_recv L2 = OK ->
  len <= DL - 4 -> (N.of_nat len < 65536)%N -> (N.of_nat off < 65536)%N ->
  call DL build sb sid cb2 cid2 (NRead id off len) e2 L2 mem2 s2 = (Answered NOTFOUND [0%N] [], mem2, s2) /\
  call DL build sb sid cb2 cid2 (NMeta id 0) e2 L2 mem2 s2 = (Answered NOTFOUND [0; 0; 0; 0]%N [], mem2, s2).
Proof.
  intros DL build sb sid cb cid ids e L mem mem' s s1 vs id HD HS He HA HC HI HV HN s2 cb2 cid2 e2 L2 mem2 off len He2 HL2 K1 K2 Hl Hl2 Ho.
  assert (F1 : sp_find s1 id = None).
  { destruct (le_lt_dec (length ids) 19) as [L1|L1]; [|rewrite call_refused in HC by exact L1; discriminate].
    assert (NT : ~ too_big DL (NDestroy ids)) by (cbn [too_big]; lia).
    destruct (Z.eq_dec (k_send L) OK) as [J1|J1]; [|rewrite call_unsent in HC by auto; discriminate].
    destruct (Z.eq_dec (k_recv L) OK) as [J2|J2].
    2:{ destruct (call DL build sb sid cb cid (NDestroy ids) e (mkNl OK OK (k_old L)) mem s) as [[o m1] t1] eqn:E.
        rewrite (call_unheard _ _ _ _ _ _ _ _ _ _ _ _ _ _ NT J1 J2 E) in HC. discriminate. }
    rewrite call_destroy in HC by auto. cbn [does] in HC.
    destruct (Z.eqb_spec (e_lock e) OK) as [Q|Q]; cbn [negb] in HC; [|injection HC as HC _; congruence].
    destruct (existsb _ ids); [discriminate|].
    destruct (Z.eqb_spec (e_nvm e) OK) as [Q2|Q2]; cbn [negb] in HC; [|injection HC as HC _; congruence].
    injection HC as _ <-. rewrite find_destroy.
    assert (X : existsb (N.eqb id) ids = true) by (apply existsb_exists; exists id; split; auto; apply N.eqb_refl). rewrite X. reflexivity. }
  assert (S1 : store_ok s1).
  { pose proof (event_step DL build sb sid (mkEv cb cid (NDestroy ids) e L mem) s 0 HD) as X.
    cbn [v_big v_id v_call v_env v_link v_mem] in X. rewrite HC in X. apply X; auto. unfold event_ok. cbn. auto. }
  assert (S2 : store_ok s2) by (apply run_ok; auto).
  assert (F2 : sp_find s2 id = None) by (unfold s2; rewrite run_find; auto).
  assert (B : (id < 65536)%N) by exact (proj1 (Forall_forall _ _) HA id HI). clearbody s2. split.
  - rewrite call_read by (auto; cbn; repeat split; auto). cbn [does]. rewrite HL2. change (negb (Z.eqb OK OK)) with false. cbv iota.
    destruct (Nat.ltb_spec (DL - 4) len); [lia|]. unfold bytes_of. rewrite F2. reflexivity.
  - rewrite call_meta by auto. cbn [does]. rewrite HL2, F2. reflexivity.
Qed.
Print Assumptions C86_destroyed.
Example C86_destroyed_example : fst (fst (exN (NDestroy [3%N]) goodL exS)) = Answered OK [] [] /\
  fst (fst (exN (NRead 3 0 2) goodL (snd (exN (NDestroy [3%N]) goodL exS)))) = Answered NOTFOUND [0%N] [].
Proof. vm_compute. split; reflexivity. Qed.
