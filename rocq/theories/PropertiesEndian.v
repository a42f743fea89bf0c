(** Property C18: byte-order translation. *)
From Coq Require Import String.
From Verif Require Import Base BaseLemmas EndianModel EndianProof MsgTable.
Local Open Scope N_scope.

(** Translating a field twice with the same magic gives the field back, and a
    magic of the own order leaves it alone: all values, all magics. *)
Theorem C18_involution : forall w magic v, (w = 1 \/ w = 2 \/ w = 4 \/ w = 8)%nat -> v < 256 ^ N.of_nat w ->
  translate w magic (translate w magic v) = v /\ translate w MAGIC_NATIVE v = v.
Proof.
  intros w magic v HW H. rewrite (translate_eq w magic v HW H). split.
  - destruct (swaptest magic) eqn:E.
    + rewrite translate_eq by auto. rewrite E. reflexivity.
    + rewrite translate_eq by (auto using bswap_lt). rewrite E. apply bswap_invol; auto.
  - rewrite translate_eq by auto. reflexivity.
Qed.
Print Assumptions C18_involution.

(** A header or field value written by a client of order [be] together with its
    native magic is read as the same value by a server of order [be'] that
    translates by the magic it sees; and the answer the server writes, with
    that magic, is read by the client as native and with the server's value. *)
Theorem C18_field_peers : forall w be be' v, (w = 1 \/ w = 2 \/ w = 4 \/ w = 8)%nat -> v < 256 ^ N.of_nat w ->
  let magic := dec be' (enc be 2 MAGIC_NATIVE) in
  translate w magic (dec be' (enc be w v)) = v /\
  dec be (enc be' 2 magic) = MAGIC_NATIVE /\
  dec be (enc be' w (translate w magic v)) = v.
Proof.
  intros w be be' v HW H magic. split; [|split].
  - apply field_agree; auto.
  - unfold magic. destruct be, be'; vm_compute; reflexivity.
  - apply field_reply; auto.
Qed.
Print Assumptions C18_field_peers.

(** Every translation function treats every field, with the right width. *)
Theorem C18_table_complete : forall m, In m msg_table -> complete (md_fields m) = true.
Proof.
  assert (H : forallb (fun m => complete (md_fields m)) msg_table = true) by (vm_compute; reflexivity).
  intros m HI. rewrite forallb_forall in H. apply H; auto.
Qed.
Print Assumptions C18_table_complete.

(** For every message: request and answer arrive with the values that were
    sent, whatever the orders of the peers, whatever the destination held. *)
Theorem C18_message_peers : forall m be be' vs dest, In m msg_table ->
  Forall2 fits (md_fields m) vs -> length dest = length (md_fields m) ->
  let magic := dec be' (enc be 2 MAGIC_NATIVE) in
  agree (md_fields m) vs (tr_msg (md_fields m) magic (msg_seen be be' (md_fields m) vs) dest) /\
  agree (md_fields m) vs (msg_seen be' be (md_fields m) (tr_msg (md_fields m) magic vs dest)).
Proof.
  intros m be be' vs dest HI HF HL magic. pose proof (C18_table_complete m HI) as HC.
  split; [apply msg_agree|apply msg_reply]; auto.
Qed.
Print Assumptions C18_message_peers.

Theorem C18_message_involution : forall m magic vs d1 d2, In m msg_table ->
  Forall2 fits (md_fields m) vs -> length d1 = length (md_fields m) -> length d2 = length (md_fields m) ->
  agree (md_fields m) vs (tr_msg (md_fields m) magic (tr_msg (md_fields m) magic vs d1) d2).
Proof. intros m magic vs d1 d2 HI HF H1 H2. apply msg_invol; auto. apply C18_table_complete; auto. Qed.
Print Assumptions C18_message_involution.

(** Custom-callback messages, whose layout depends on the translated type. *)
Lemma custom_complete resp ty : complete (custom_def resp ty) = true.
Proof.
  unfold custom_def, custom_data, complete. destruct resp; cbn [custom_head map app forallb];
  destruct (ty =? 1), (ty =? 2), (8 <=? ty); reflexivity.
Qed.
Lemma custom_type resp be be' ty vs : Forall2 fits (custom_def resp ty) vs -> nth 1 vs [] = [ty] ->
  translate 4 (dec be' (enc be 2 MAGIC_NATIVE)) (hd 0 (nth 1 (msg_seen be be' (custom_def resp ty) vs) [])) = ty.
Proof.
  intros HF HT. destruct vs as [|v0 [|v1 vs]]; cbn [nth] in HT; try discriminate. subst v1.
  destruct resp; cbn [custom_def custom_head map app] in *; inversion HF as [|? ? ? ? _ HF2]; subst; inversion HF2 as [|? ? ? ? [HV _] _]; subst;
    cbn [msg_seen nth seen_by map hd f_width] in *; inversion HV; subst; apply field_agree; unfold wide; auto.
Qed.
Theorem C18_custom_peers : forall resp be be' ty vs dest,
  Forall2 fits (custom_def resp ty) vs -> nth 1 vs [] = [ty] -> length dest = length (custom_def resp ty) ->
  agree (custom_def resp ty) vs (tr_custom resp (dec be' (enc be 2 MAGIC_NATIVE)) (msg_seen be be' (custom_def resp ty) vs) dest).
Proof.
  intros resp be be' ty vs dest HF HT HL. unfold tr_custom. rewrite custom_type by auto.
  apply msg_agree; auto. apply custom_complete.
Qed.
Print Assumptions C18_custom_peers.

(** ** Concrete case: a read request of a big-endian client at a little-endian
    server, bytes swapped on the way and restored. *)
Example C18_read_request :
  let vs := [[0x1234]; [7]; [0x0100]] in
  Forall2 fits (md_fields m_Nvm_ReadRequest) vs /\
  msg_seen true false (md_fields m_Nvm_ReadRequest) vs = [[0x3412]; [0x0700]; [1]] /\
  tr_msg (md_fields m_Nvm_ReadRequest) 0x01A5 (msg_seen true false (md_fields m_Nvm_ReadRequest) vs) [[0]; [0]; [0]] = vs /\
  dec false (enc true 2 MAGIC_NATIVE) = 0x01A5.
Proof.
  split; [|vm_compute; auto].
  repeat (constructor; [split; [repeat constructor|intros X; discriminate X]|]). constructor.
Qed.
Example C18_swap : swap32 0x11223344 = 0x44332211 /\ swap64 0x1122334455667788 = 0x8877665544332211.
Proof. split; vm_compute; reflexivity. Qed.
