(** Properties C15, C17, C49, C50, C51: packet layer, request loop, locks and
    timeouts. *)
From Verif Require Import Base BaseLemmas EndianModel TimeoutModel TimeoutProof CommModel CommSpec CommProof
  ServerModel ServerProof.
Local Open Scope N_scope.

(** * C15 *)
(** Whatever is called, in whatever order, whatever packets the transport hands
    up and whenever timeouts expire: a delivered response carries the sequence
    number of a request sent before, and since that request no other request was
    sent and none was answered, timed out or abandoned. *)
Theorem C15_delivery_matches_request : forall DL es tcfg j q,
  Forall env_ok es ->
  let tr := crun DL es (cl_init DL tcfg) in
  at_ tr j (fun o => delivered o q) ->
  exists i, (i < j)%nat /\ at_ tr i (fun o => accepted o q) /\
    forall k o, (i < k < j)%nat -> nth_error tr k = Some o ->
      ~ over_with o /\ forall q', ~ accepted o q'.
Proof. exact delivery_matches. Qed.
Print Assumptions C15_delivery_matches_request.

(** At most one request is outstanding: between two requests that went out, the
    first one ended. *)
Theorem C15_one_outstanding : forall DL es tcfg i j q q',
  let tr := crun DL es (cl_init DL tcfg) in
  (i < j)%nat -> at_ tr i (fun o => accepted o q) -> at_ tr j (fun o => accepted o q') ->
  exists k, (i < k < j)%nat /\ at_ tr k over_or_fatal.
Proof. exact one_outstanding. Qed.
Print Assumptions C15_one_outstanding.

(** Requests of a connection with fewer than 65536 requests between them have
    different sequence numbers, so that an answer to the one cannot be taken for
    an answer to the other. *)
Theorem C15_sequence_numbers_distinct : forall DL es tcfg i j q q',
  let tr := crun DL es (cl_init DL tcfg) in
  (i < j)%nat -> at_ tr i (fun o => accepted o q) -> at_ tr j (fun o => accepted o q') ->
  ~ In OInit tr -> N.of_nat (requests (firstn (j - i) (skipn i tr))) < 65536 -> q <> q'.
Proof. exact seq_distinct. Qed.
Print Assumptions C15_sequence_numbers_distinct.

(** The bound is sharp: the 65537th request has the number of the first, whose
    late answer (here the packet [[1;0xA5;0;2;1;0;0;0]]) is then delivered. *)
Definition wrap_events : list ccall :=
  concat (repeat [CSend OK 1 MAGIC_NATIVE 0x200 0 SNull; CAbort] (N.to_nat 65536)) ++
  [CSend OK 1 MAGIC_NATIVE 0x200 0 SNull; CRecv OK 8 [1; 0xA5; 0; 2; 1; 0; 0; 0] None 1 0 DNull].
Definition ok_recv (o : cout) (q : N) : bool :=
  match o with ORecv r => is_ok (r_rc r) && match r_seq r with Some x => x =? q | None => false end | _ => false end.
Definition sent_as (o : cout) (q : N) : bool :=
  match o with OSend _ (Some x) _ => x =? q | _ => false end.
Theorem C15_wraparound_refuted :
  let tr := crun 0 wrap_events (cl_init 0 None) in
  sent_as (nth 0 tr OInit) 1 = true /\
  sent_as (nth (N.to_nat 131072) tr OInit) 1 = true /\
  ok_recv (nth (N.to_nat 131073) tr OInit) 1 = true.
Proof. vm_compute. auto. Qed.
Print Assumptions C15_wraparound_refuted.

(** A concrete run: a request, a stale packet that is dropped, an answer. *)
Definition pkt (kind seq : N) (d : list N) : list N := le_enc 2 MAGIC_NATIVE ++ le_enc 2 kind ++ le_enc 2 seq ++ [0; 0] ++ d.
Example C15_run :
  let es := [CSend OK 1 MAGIC_NATIVE 0x105 4 (SBuf [1;2;3;4]);
             CSend OK 1 MAGIC_NATIVE 0x105 4 (SBuf [1;2;3;4]);
             CRecv NOTREADY 0 (repeat 0 16) None 1 8 DBuf;
             CRecv OK 12 (pkt 0x105 7 (repeat 9 8)) None 1 8 DBuf;
             CRecv OK 12 (pkt 0x105 1 [1;2;3;4;0;0;0;0]) None 1 8 DBuf] in
  crun 8 es (cl_init 8 None) =
    [OSend OK (Some 1) (Some (pkt 0x105 1 [1;2;3;4]));
     OSend REQUEST_PENDING None None;
     ORecv (rfail NOTREADY); ORecv (rfail NOTREADY);
     ORecv (mkR OK (Some MAGIC_NATIVE) (Some 0x105) (Some 1) (Some 4%nat) [1;2;3;4])].
Proof. vm_compute. reflexivity. Qed.

(** * C17 *)
(** The client accepts a packet only if its length is between the header and the
    receive limit and its magic is right; the caller's buffer never receives more
    than its capacity, and it gets exactly the payload. *)
Theorem C17_client_receive : forall DL trc size buf app now cap d c r c',
  length buf = PKT DL -> cl_recv DL trc size buf app now cap d c = (r, c') ->
  (length (r_copied r) <= cap)%nat /\
  (r_rc r = OK ->
    trc = OK /\ (8 <= size <= MTU DL)%nat /\ (size <= PKT DL)%nat /\ pk_magic buf = MAGIC_NATIVE /\
    r_size r = Some (size - 8)%nat /\
    (d = DBuf -> r_copied r = firstn (size - 8) (skipn 8 buf) /\ (size - 8 <= cap)%nat)).
Proof. exact recv_sound. Qed.
Print Assumptions C17_client_receive.

(** The server likewise, but for the magic, which it does not check. *)
Theorem C17_server_receive_partial : forall DL trc size buf cap d,
  length buf = PKT DL ->
  let r := sv_recv DL trc size buf cap d in
  (length (r_copied r) <= cap)%nat /\
  (r_rc r = OK ->
    trc = OK /\ (8 <= size <= MTU DL)%nat /\ (size <= PKT DL)%nat /\ r_size r = Some (size - 8)%nat /\
    (d <> DNull -> (size - 8 <= cap)%nat) /\
    (d = DBuf -> r_copied r = firstn (size - 8) (skipn 8 buf))).
Proof. exact sv_recv_sound. Qed.
Print Assumptions C17_server_receive_partial.

(** A packet with magic 0x0000, neither native nor byte-swapped, reaches the
    server as a message. *)
Theorem C17_server_wrong_magic_refuted :
  let buf := [0; 0; 2; 5; 0; 1; 0; 0] in
  pk_magic buf <> MAGIC_NATIVE /\ pk_magic buf <> swap16 MAGIC_NATIVE /\
  r_rc (sv_recv 0 OK 8 buf 0 DSelf) = OK /\ r_kind (sv_recv 0 OK 8 buf 0 DSelf) = Some 0x205.
Proof. vm_compute. repeat split; intros X; discriminate X. Qed.
Print Assumptions C17_server_wrong_magic_refuted.

(** A packet of impossible length, or a transport error, has no effect on the
    server: nothing is answered, no handler runs, the state is the one before, so
    that the next request is treated as if the bad one had not been there. *)
Theorem C17_server_unharmed : forall DL St global logout info flat c trc size buf rcs s,
  trc <> OK \/ (size < 8)%nat \/ (MTU DL < size)%nat ->
  let r := handle_message DL St global logout info flat c trc size buf rcs s in
  hr_sent St r = [] /\ hr_ran St r = [] /\ hr_state St r = s /\ hr_rc St r <> Some OK.
Proof. exact refused. Qed.
Print Assumptions C17_server_unharmed.

Example C17_cases :
  r_rc (sv_recv 8 OK 7 (repeat 0 16) 8 DSelf) = ABORTED /\
  r_rc (sv_recv 8 OK 17 (repeat 0 16) 8 DSelf) = ABORTED /\
  r_rc (sv_recv 8 OK 16 (pkt 0x105 1 (repeat 1 8)) 8 DBuf) = OK /\
  r_copied (sv_recv 8 OK 16 (pkt 0x105 1 (repeat 1 8)) 8 DBuf) = repeat 1 8 /\
  r_rc (sv_recv 8 OK 16 (pkt 0x105 1 (repeat 1 8)) 7 DBuf) = BUFFER_SIZE.
Proof. vm_compute. auto. Qed.

(** * C49 *)
(** Every request of acceptable length is answered by exactly one packet with
    the same header: magic, kind and sequence number.  The handlers must keep
    their response within the buffer ([well]); those modelled here do. *)
Theorem C49_answered_once : forall DL St global logout info flat c size buf k rest s,
  s_connected St s = true -> packet_ok DL size buf ->
  (forall h, dispatch St global logout info c (msg_group (pk_kind buf)) = Some h -> well DL St h) ->
  (auth_err_size flat (msg_group (pk_kind buf)) (msg_action (pk_kind buf)) <= DL)%nat ->
  let r := handle_message DL St global logout info flat c OK size buf (repeat NOTREADY k ++ OK :: rest) s in
  hr_rc St r = Some OK /\
  exists p, hr_sent St r = [p] /\ firstn 8 p = firstn 8 buf /\ (8 <= length p <= MTU DL)%nat.
Proof. exact answered. Qed.
Print Assumptions C49_answered_once.

Theorem C49_handlers_fit : forall DL St global logout info tbl,
  (CRESP <= DL)%nat -> (forall m, (length (info m) <= DL)%nat) -> cb_well St tbl ->
  well DL St (h_comm St global logout info) /\ well DL St (h_pkcs11 St) /\ well DL St (h_custom St tbl).
Proof.
  intros DL St global logout info tbl HD HI HC. split; [|split].
  - apply well_comm; auto. unfold CRESP in HD. lia.
  - exact (well_pkcs11 DL St info).
  - exact (well_custom DL St info 0%nat tbl HD HC).
Qed.
Print Assumptions C49_handlers_fit.

(** Exactly one handler runs, the one of the request's group, and the new state
    is what it returns; if the group is unknown or the authorization check
    refuses, none runs and the state is unchanged. *)
Theorem C49_one_handler : forall DL St global logout info flat c size buf rcs s,
  s_connected St s = true -> packet_ok DL size buf ->
  let r := handle_message DL St global logout info flat c OK size buf rcs s in
  let g := msg_group (pk_kind buf) in
  let allowed := match authz St c with None => true | Some f => is_ok (f g (msg_action (pk_kind buf)) s) end in
  match (if allowed then dispatch St global logout info c g else None) with
  | Some h => hr_ran St r = [g] /\
      hr_state St r = snd (h (pk_magic buf) (msg_action (pk_kind buf)) (pk_seq buf) (size - 8)%nat (skipn 8 buf) s)
  | None => hr_ran St r = [] /\ hr_state St r = s
  end.
Proof. exact one_handler. Qed.
Print Assumptions C49_one_handler.

(** The groups that are known, and their handlers. *)
Theorem C49_groups : forall St global logout info c g,
  dispatch St global logout info c g = None <->
  ~ (g = GROUP_COMM \/ g = GROUP_NVM \/ g = GROUP_AUTH \/ g = GROUP_COUNTER \/ g = GROUP_PKCS11 \/ g = GROUP_CUSTOM \/
     (b_crypto St c = true /\ (g = GROUP_KEY \/ g = GROUP_CRYPTO \/ (b_dma St c = true /\ g = GROUP_CRYPTO_DMA) \/
                            (b_cert St c = true /\ g = GROUP_CERT))) \/
     (b_she St c = true /\ g = GROUP_SHE)).
Proof.
  intros St global logout info c g. unfold dispatch.
  destruct (N.eqb_spec g GROUP_COMM); [split; [discriminate|tauto]|].
  destruct (N.eqb_spec g GROUP_NVM); [split; [discriminate|tauto]|].
  destruct (N.eqb_spec g GROUP_AUTH); [split; [discriminate|tauto]|].
  destruct (N.eqb_spec g GROUP_COUNTER); [split; [discriminate|tauto]|].
  destruct (N.eqb_spec g GROUP_KEY), (N.eqb_spec g GROUP_CRYPTO), (N.eqb_spec g GROUP_CRYPTO_DMA),
    (N.eqb_spec g GROUP_PKCS11), (N.eqb_spec g GROUP_SHE), (N.eqb_spec g GROUP_CUSTOM), (N.eqb_spec g GROUP_CERT);
    try congruence;
    destruct (b_crypto St c), (b_dma St c), (b_she St c), (b_cert St c); cbn [andb];
    (split; [intros X; try discriminate X; intuition congruence|intros X; try reflexivity; exfalso; apply X; tauto]).
Qed.
Print Assumptions C49_groups.

(** The table of wh_message.h 35-51 and wh_server.c 622-700: which handler the
    requests of each group reach. *)
Inductive handled_by St global logout info (c : cfg St) : N -> handler St -> Prop :=
| HbComm : handled_by St global logout info c 0x100 (h_comm St global logout info)
| HbNvm : handled_by St global logout info c 0x200 (h_nvm St c)
| HbKey : b_crypto St c = true -> handled_by St global logout info c 0x300 (h_key St c)
| HbCrypto : b_crypto St c = true -> handled_by St global logout info c 0x400 (h_crypto St c)
| HbPkcs11 : handled_by St global logout info c 0x600 (h_pkcs11 St)
| HbShe : b_she St c = true -> handled_by St global logout info c 0x700 (h_she St c)
| HbCounter : handled_by St global logout info c 0x800 (h_counter St c)
| HbCustom : handled_by St global logout info c 0xA00 (h_custom St (cbs St c))
| HbCryptoDma : b_crypto St c = true -> b_dma St c = true ->
    handled_by St global logout info c 0xB00 (h_cryptodma St c)
| HbCert : b_crypto St c = true -> b_cert St c = true -> handled_by St global logout info c 0xC00 (h_cert St c)
| HbAuth : forall f, authz St c = Some f -> handled_by St global logout info c 0xD00 (h_auth St c).

Theorem C49_right_handler : forall St global logout info c g h,
  handled_by St global logout info c g h -> dispatch St global logout info c g = Some h.
Proof.
  intros St global logout info c g h H. destruct H; unfold dispatch; cbn;
    repeat match goal with E : _ = true |- _ => rewrite E | E : authz _ _ = Some _ |- _ => rewrite E end; reflexivity.
Qed.
Print Assumptions C49_right_handler.

(** So a request of an acceptable length that the authorization check lets through
    changes the state exactly as the handler of its group says. *)
Theorem C49_right_handler_runs : forall DL St global logout info flat c size buf rcs s h,
  s_connected St s = true -> packet_ok DL size buf ->
  (forall f, authz St c = Some f -> f (msg_group (pk_kind buf)) (msg_action (pk_kind buf)) s = OK) ->
  handled_by St global logout info c (msg_group (pk_kind buf)) h ->
  hr_state St (handle_message DL St global logout info flat c OK size buf rcs s) =
  snd (h (pk_magic buf) (msg_action (pk_kind buf)) (pk_seq buf) (size - 8)%nat (skipn 8 buf) s).
Proof.
  intros DL St global logout info flat c size buf rcs s h HC HP HA HH.
  pose proof (C49_one_handler DL St global logout info flat c size buf rcs s HC HP) as H.
  cbv zeta in H. rewrite (C49_right_handler _ _ _ _ _ _ _ HH) in H.
  destruct (authz St c) as [f|] eqn:E; [rewrite (HA f eq_refl) in H|]; exact (proj2 H).
Qed.
Print Assumptions C49_right_handler_runs.

(** Custom callbacks: a registered callback runs, with the request's id, type and
    data, exactly when the request is not a query; otherwise the state stays as it
    is.  The answer says NOHANDLER when none is registered. *)
Theorem C49_custom_callback : forall St tbl magic action seq buf s,
  action < CUSTOMCB_COUNT -> (CRESP <= length buf)%nat -> bytes_ok buf ->
  exists buf' s', h_custom St tbl magic action seq CREQ buf s = (OK, CRESP, buf', s') /\
    get32 magic 0 buf' = get32 magic 0 buf /\
    (tbl action = None -> s' = s /\ get32 magic 12 buf' = u32 NOHANDLER) /\
    (forall f, tbl action = Some f -> get32 magic 12 buf' = u32 OK /\
       (get32 magic 4 buf = 0 -> s' = s /\ get32 magic 8 buf' = u32 OK) /\
       (get32 magic 4 buf <> 0 -> exists rc ty d,
          f (get32 magic 0 buf) (get32 magic 4 buf)
            (tr_cdata magic (get32 magic 4 buf) (firstn CUSTOMCB_LEN (skipn 8 buf)) (repeat 0 CUSTOMCB_LEN)) s = (rc, ty, d, s')
          /\ get32 magic 8 buf' = u32 rc)).
Proof. intros St. exact (custom_answer St (fun _ => [])). Qed.
Print Assumptions C49_custom_callback.

(** Only registration changes the table, and only at the given index. *)
Theorem C49_register : forall St action f tbl,
  (action < CUSTOMCB_COUNT -> register St action (Some f) tbl = (OK, fun a => if a =? action then Some f else tbl a)) /\
  (CUSTOMCB_COUNT <= action -> register St action (Some f) tbl = (BADARGS, tbl)) /\
  register St action None tbl = (BADARGS, tbl).
Proof.
  intros St action f tbl. unfold register. split; [|split; [|reflexivity]]; intros H.
  - replace (CUSTOMCB_COUNT <=? action) with false by (symmetry; apply N.leb_gt; auto). reflexivity.
  - replace (CUSTOMCB_COUNT <=? action) with true by (symmetry; apply N.leb_le; auto). reflexivity.
Qed.
Print Assumptions C49_register.

(** An action outside the table is not answered with an error but with the bytes
    of the request. *)
Theorem C49_custom_out_of_range_refuted : forall St tbl magic seq size buf s,
  h_custom St tbl magic 8 seq size buf s = (BADARGS, size, buf, s).
Proof. reflexivity. Qed.
Print Assumptions C49_custom_out_of_range_refuted.

(** A concrete server: echo, an unknown group, a custom callback. *)
Definition stub : handler unit := fun _ _ _ n b s => (OK, n, b, s).
Definition ex_cb : customcb unit := fun id ty d s => (7%Z, 8, repeat 5 256, s).
Definition ex_cfg : cfg unit :=
  mkCfg unit true true true true stub stub stub stub stub stub stub stub
    (fun a => if a =? 3 then Some ex_cb else None) None.
Definition ex_srv : sctx unit := mkS unit true 1 2 tt.
Definition ex_handle := handle_message 272 unit false (fun x => x) (fun _ => repeat 0 72) 0 ex_cfg OK.
Definition pad (p : list N) : list N := p ++ repeat 0 (PKT 272 - length p).
Example C49_echo :
  let r := ex_handle 12%nat (pad (pkt 0x105 9 [1;2;3;4])) [NOTREADY; OK] ex_srv in
  hr_sent unit r = [pkt 0x105 9 [1;2;3;4]] /\ hr_ran unit r = [GROUP_COMM] /\ hr_rc unit r = Some OK.
Proof. vm_compute. auto. Qed.
Example C49_reached :
  let r := ex_handle 12%nat (pad (pkt 0x802 9 [1;2;3;4])) [OK] ex_srv in
  handled_by unit false (fun x => x) (fun _ => repeat 0 72) ex_cfg (msg_group 0x802) stub /\ hr_ran unit r = [GROUP_COUNTER].
Proof. split; [apply (HbCounter unit)|vm_compute; reflexivity]. Qed.
Example C49_unknown :
  let r := ex_handle 12%nat (pad (pkt 0x905 9 [1;2;3;4])) [OK] ex_srv in
  hr_sent unit r = [pkt 0x905 9 []] /\ hr_ran unit r = [].
Proof. vm_compute. auto. Qed.
Example C49_custom :
  let req := le_enc 4 3 ++ le_enc 4 8 ++ repeat 1 256 in
  hr_sent unit (ex_handle 272%nat (pad (pkt 0xA03 9 req)) [OK] ex_srv)
    = [pkt 0xA03 9 (le_enc 4 3 ++ le_enc 4 8 ++ le_enc 4 7 ++ le_enc 4 0 ++ repeat 5 256)] /\
  (exists d, hr_sent unit (ex_handle 272%nat (pad (pkt 0xA02 9 req)) [OK] ex_srv)
    = [pkt 0xA02 9 (le_enc 4 3 ++ le_enc 4 0 ++ le_enc 4 0 ++ le_enc 4 (u32 NOHANDLER) ++ d)]) /\
  packet_ok 272 272 (pad (pkt 0xA03 9 req)).
Proof.
  split; [vm_compute; reflexivity|]. split; [eexists; vm_compute; reflexivity|].
  split; [vm_compute; lia|]. split; [vm_compute; reflexivity|].
  unfold pad, pkt. apply bytes_ok_app. split; [|apply bytes_ok_repeat0].
  apply Forall_forall. intros x HI. vm_compute in HI. unfold byte_ok.
  repeat (destruct HI as [<-|HI]; [reflexivity|]). destruct HI.
Qed.

(** * C18, custom callbacks *)
(** A big-endian client sends a request to a little-endian server; the callback
    answers with type DMA32 and client_addr 0x11223344.  The server decides how to
    translate the data by the already swapped type, so the words are not swapped,
    and the client reads 0x44332211. *)
Definition dma_cb : customcb unit := fun id ty d s => (0%Z, 1, le_enc 4 0x11223344 ++ repeat 0 252, s).
Definition be32 (l : list N) : N := le_dec (rev (firstn 4 l)).
Theorem C18_custom_reply_refuted :
  let magic := swap16 MAGIC_NATIVE in
  let req := rev (le_enc 4 3) ++ rev (le_enc 4 1) ++ repeat 0 264 in
  let '(rc, n, resp, _) := h_custom unit (fun _ => Some dma_cb) magic 3 1 CREQ req ex_srv in
  rc = OK /\ be32 (skipn 4 resp) = 1 /\ be32 (skipn 16 resp) = 0x44332211.
Proof. vm_compute. auto. Qed.
Print Assumptions C18_custom_reply_refuted.

(** * C50 *)
(** With a monotonic clock, the timer reports expiry exactly when it was started
    (and not stopped since), the limit in force is not zero, and at least that
    time has passed since the last start. *)
Theorem C50_expires_exactly : forall cfg h now,
  Forall clock_ok h -> clock_ok (TExpired now) -> (forall t0, start_now h = Some t0 -> t0 <= now) ->
  let rc := fst (timeout_expired None now (snd (trun h (timeout_init (Some cfg))))) in
  (rc = 1%Z <-> exists t0, start_now h = Some t0 /\ limit_now cfg h <> 0 /\ limit_now cfg h <= now - t0) /\
  (rc = 0%Z \/ rc = 1%Z).
Proof. exact expired_exact. Qed.
Print Assumptions C50_expires_exactly.

Theorem C50_unconfigured_never : forall h now,
  fst (timeout_expired None now (snd (trun h (timeout_init None)))) = 0%Z.
Proof. exact noop_never. Qed.
Print Assumptions C50_unconfigured_never.

(** If the clock fails while a running timer is restarted, the start returns an
    error, but the timer goes on running with start time zero and expires at once. *)
Theorem C50_failed_restart_refuted :
  let t := snd (trun [TStart 5000000; TStart 0] (timeout_init (Some 1000000))) in
  fst (timeout_expired None 5000001 t) = 1%Z /\
  fst (tcall_step (TStart 0) (snd (trun [TStart 5000000] (timeout_init (Some 1000000))))) = ABORTED.
Proof. vm_compute. auto. Qed.
Print Assumptions C50_failed_restart_refuted.

(** Locks: in every schedule of any number of threads, between two successful
    acquisitions there is a successful release, and a successful release is made
    by the thread whose acquisition is the last. *)
Theorem C50_mutual_exclusion : forall k cs i j a b,
  let tr := lrun k cs fresh_lock in
  (i < j)%nat -> nth_error tr i = Some (a, LAcq, LRet OK) -> nth_error tr j = Some (b, LAcq, LRet OK) ->
  exists n m, (i < n < j)%nat /\ nth_error tr n = Some (m, LRel, LRet OK).
Proof. exact mutual_exclusion. Qed.
Print Assumptions C50_mutual_exclusion.

Theorem C50_release_by_holder : forall k cs j b,
  let tr := lrun k cs fresh_lock in
  nth_error tr j = Some (b, LRel, LRet OK) ->
  exists i, (i < j)%nat /\ nth_error tr i = Some (b, LAcq, LRet OK) /\
    forall n m, (i < n < j)%nat -> nth_error tr n <> Some (m, LRel, LRet OK) /\ nth_error tr n <> Some (m, LAcq, LRet OK).
Proof. exact release_by_holder. Qed.
Print Assumptions C50_release_by_holder.

Example C50_cases :
  lrun MErrorCheck [(1, LAcq); (2, LAcq); (2, LRel); (1, LAcq); (1, LRel); (2, LAcq)]%nat fresh_lock =
    [(1, LAcq, LRet OK); (2, LAcq, LBlocked); (2, LRel, LRet LOCKED); (1, LAcq, LRet ABORTED);
     (1, LRel, LRet OK); (2, LAcq, LRet OK)]%nat /\
  map snd (fst (trun [TStart 100; TExpired 149; TExpired 150; TSet 0; TExpired 1000; TSet 60; TStop; TExpired 2000]
    (timeout_init (Some 50)))) = [OK; 0; 1; OK; 0; OK; OK; 0]%Z.
Proof. vm_compute. auto. Qed.

(** * C51 *)
(** With a response timeout of [L] microseconds: if the request went out at time
    [t0] and the transport never had anything since, a receive at [t0 + L] or later
    reports TIMEOUT, and receives before report NOTREADY. *)
Definition quiet (t0 L : N) (e : ccall) : Prop :=
  exists sz buf n cap d, e = CRecv NOTREADY sz buf None n cap d /\ t0 <= n < 2 ^ 64 /\ n - t0 < L.
Theorem C51_timeout_fires : forall DL L t0 now magic kind size s es sz buf cap d,
  0 < t0 < 2 ^ 64 -> t0 <= now < 2 ^ 64 -> 0 < L -> L <= now - t0 -> (size <= DL)%nat ->
  Forall (quiet t0 L) es ->
  let tr := crun DL (CSend OK t0 magic kind size s :: es ++ [CRecv NOTREADY sz buf None now cap d]) (cl_init DL (Some L)) in
  (forall i o, (0 < i <= length es)%nat -> nth_error tr i = Some o -> o = ORecv (rfail NOTREADY)) /\
  nth_error tr (S (length es)) = Some (ORecv (rfail TIMEOUT)).
Proof.
  intros DL L t0 now magic kind size s es sz buf cap d H1 H2 H3 H4 H5 F tr. subst tr.
  assert (S0 : exists o c0, ccall_step DL (CSend OK t0 magic kind size s) (cl_init DL (Some L)) = (o, c0) /\
    c_init c0 = true /\ c_pending c0 = true /\ c_timer c0 = mkT true true L t0 true).
  { cbn [ccall_step]. unfold cl_send. cbn [cl_init c_init c_pending negb].
    replace (DL <? size)%nat with false by (symmetry; apply Nat.ltb_ge; lia).
    cbn [is_ok Z.eqb OK c_timer timeout_init]. unfold timeout_start. cbn [t_init t_cb negb].
    replace (t0 =? 0) with false by (symmetry; apply N.eqb_neq; lia).
    eexists _, _. split; [reflexivity|]. auto. }
  destruct S0 as (o0 & c0 & S0 & A1 & A2 & A3). cbn [crun]. rewrite S0.
  assert (D : forall n, t0 <= n < 2 ^ 64 -> (n + U64 - t0) mod U64 = n - t0).
  { intros n Hn. unfold U64. replace (n + 2 ^ 64 - t0) with ((n - t0) + 1 * 2 ^ 64) by lia.
    rewrite N.mod_add by lia. apply N.mod_small. lia. }
  assert (X : forall es c, Forall (quiet t0 L) es -> c_init c = true -> c_pending c = true -> c_timer c = mkT true true L t0 true ->
     (forall i o, (i < length es)%nat -> nth_error (crun DL (es ++ [CRecv NOTREADY sz buf None now cap d]) c) i = Some o -> o = ORecv (rfail NOTREADY)) /\
     nth_error (crun DL (es ++ [CRecv NOTREADY sz buf None now cap d]) c) (length es) = Some (ORecv (rfail TIMEOUT))).
  { clear - D H1 H2 H3 H4. induction es as [|e es IH]; intros c F I1 I2 I3.
    - split; [cbn; lia|]. cbn [app crun ccall_step length nth_error]. unfold cl_recv. rewrite I1, I2, I3. cbn [negb is_ok Z.eqb NOTREADY OK ABORTED].
      unfold timeout_expired. cbn [t_init t_cb negb orb]. unfold posix_expired. cbn [t_run t_limit t_start negb orb].
      replace (L =? 0) with false by (symmetry; apply N.eqb_neq; lia).
      replace (now =? 0) with false by (symmetry; apply N.eqb_neq; lia). rewrite D by auto.
      replace (L <=? now - t0) with true by (symmetry; apply N.leb_le; lia). reflexivity.
    - inversion F as [|? ? (sz' & buf' & n & cap' & d' & -> & Q1 & Q2) F']; subst.
      assert (S1 : cl_recv DL NOTREADY sz' buf' None n cap' d' c = (rfail NOTREADY, mkC true true (c_seq c) buf' (mkT true true L t0 true))).
      { unfold cl_recv. rewrite I1, I2, I3. cbn [negb is_ok Z.eqb NOTREADY OK ABORTED].
        unfold timeout_expired. cbn [t_init t_cb negb orb]. unfold posix_expired. cbn [t_run t_limit t_start negb orb].
        replace (L =? 0) with false by (symmetry; apply N.eqb_neq; lia).
        replace (n =? 0) with false by (symmetry; apply N.eqb_neq; lia). rewrite D by auto.
        replace (L <=? n - t0) with false by (symmetry; apply N.leb_gt; lia). reflexivity. }
      cbn [app crun ccall_step]. rewrite S1.
      destruct (IH (mkC true true (c_seq c) buf' (mkT true true L t0 true)) F' eq_refl eq_refl eq_refl) as [IH1 IH2].
      split.
      + intros [|i] o Hi Ho; cbn [nth_error length] in *; [now injection Ho|]. eapply IH1; eauto. lia.
      + exact IH2. }
  destruct (X es c0 F A1 A2 A3) as [X1 X2]. split.
  - intros [|i] o Hi Ho; [lia|]. cbn [nth_error] in Ho. eapply X1; eauto. lia.
  - exact X2.
Qed.
Print Assumptions C51_timeout_fires.

(** In general it does not fire: an old answer that arrives meanwhile is dropped,
    but it stops the timer, and the request then waits for ever. *)
Theorem C51_stale_answer_refuted : forall now, 0 < now ->
  nth_error (crun 0 [CSend OK 1 MAGIC_NATIVE 0x200 0 SNull;
                     CRecv OK 8 [1; 0xA5; 0; 2; 9; 0; 0; 0] None 2 0 DNull;
                     CRecv NOTREADY 0 (repeat 0 8) None now 0 DNull] (cl_init 0 (Some 50))) 2
  = Some (ORecv (rfail NOTREADY)).
Proof. reflexivity. Qed.
Print Assumptions C51_stale_answer_refuted.
Example C51_case :
  crun 0 [CSend OK 100 MAGIC_NATIVE 0x200 0 SNull; CRecv NOTREADY 0 (repeat 0 8) None 149 0 DNull;
          CRecv NOTREADY 0 (repeat 0 8) None 150 0 DNull] (cl_init 0 (Some 50)) =
  [OSend OK (Some 1) (Some [1; 0xA5; 0; 2; 1; 0; 0; 0]); ORecv (rfail NOTREADY); ORecv (rfail TIMEOUT)].
Proof. vm_compute. reflexivity. Qed.
