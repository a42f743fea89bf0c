(** Return codes of the key requests are ints when those of the environment are. *)
From Verif Require Import Base BaseLemmas NvmSpec Flags KeyId Store NvmReqModel KsModel KsReq NvcSpec KycModel KycSpec.

Section Codes.
Variable DL : nat.
Variable C : kscfg.
Variable crypt : cop -> list N -> list N -> Z * list N.
Variable pub : N -> list N -> Z * list N.
Variable ots : list N -> list N -> option (list N * list N).
Variable gcm_enc : list N -> list N -> N -> list N -> option (list N).
Variable gcm_dec : list N -> list N -> N -> list N -> option (list N).
Variable she_count : list N -> N.

Ltac const := solve [unfold i32, OK, ABORTED, ACCESS, BADARGS, NOTFOUND, NOSPACE, USAGE, BUFFER_SIZE, LOCKED; lia].
Ltac open1 := match goal with
  | |- context [match ?x with _ => _ end] => lazymatch x with context [match _ with _ => _ end] => fail | _ => let E := fresh "E" in destruct x eqn:E end
  end.
Ltac fin := cbn [fst snd r_rc rrc]; first [assumption | const | solve [auto with codes]
  | match goal with E : ?x = (?rc, _) |- i32 ?rc => let H := fresh in assert (H : i32 (fst x)) by (auto with codes); rewrite E in H; exact H end
  | match goal with E : ?x = (?rc, _, _) |- i32 ?rc => let H := fresh in assert (H : i32 (fst (fst x))) by (auto with codes); rewrite E in H; exact H end
  | match goal with E : ?x = (?rc, _, _, _) |- i32 ?rc => let H := fresh in assert (H : i32 (fst (fst (fst x)))) by (auto with codes); rewrite E in H; exact H end ].
Ltac codes := cbv zeta; repeat open1; fin.

Lemma meta32 s id : i32 (fst (nv_meta s id)).
Proof. unfold nv_meta. codes. Qed.
Hint Resolve meta32 : codes.
Lemma add32 r m d s : i32 r -> i32 (fst (nv_add r m d s)).
Proof. unfold nv_add. intros. codes. Qed.
Lemma read32 s id o n : i32 (fst (sp_read s id o n)).
Proof. unfold sp_read. codes. Qed.
Hint Resolve add32 read32 : codes.
Lemma policy32 op s id : i32 (check_policy op s id).
Proof. unfold check_policy. codes. Qed.
Hint Resolve policy32 : codes.
Lemma dpolicy32 s ids : i32 (destroy_policy s ids).
Proof. induction ids as [|a l IH]; cbn [destroy_policy]; codes. Qed.
Hint Resolve dpolicy32 : codes.
Lemma destroy32 r ids s : i32 r -> i32 (fst (destroy_checked r ids s)).
Proof. intros. unfold destroy_checked, nv_destroy. codes. Qed.
Hint Resolve destroy32 : codes.
Lemma check32 op S id : i32 (check_ks C op S id).
Proof. unfold check_ks. destruct (find_cache C S id); codes. Qed.
Hint Resolve check32 : codes.
Lemma ufrom32 n ty u S c : i32 (fst (unique_from n ty u S c)).
Proof. induction n; cbn [unique_from]; codes. Qed.
Hint Resolve ufrom32 : codes.
Lemma unique32 S k : i32 (fst (unique_id C S k)).
Proof. unfold unique_id. codes. Qed.
Hint Resolve unique32 : codes.
Lemma evict32 S k : i32 (fst (evict_key C S k)).
Proof. unfold evict_key. codes. Qed.
Hint Resolve evict32 : codes.
Lemma slot32 S k n s : i32 (fst (cache_slot C S k n s)).
Proof. unfold cache_slot. destruct (find_cache C S k); codes. Qed.
Hint Resolve slot32 : codes.
Lemma slotc32 S k n s : i32 (fst (cache_slot_checked C S k n s)).
Proof. unfold cache_slot_checked. codes. Qed.
Hint Resolve slotc32 : codes.
Lemma cache32 b S m d : i32 (fst (cache_key C b S m d)).
Proof. unfold cache_key. destruct b; codes. Qed.
Lemma random32 S m r d : i32 r -> i32 (fst (cache_random C S m r d)).
Proof. intros. unfold cache_random. codes. Qed.
Lemma dma32 S m r d : i32 r -> i32 (fst (cache_dma C S m r d)).
Proof. intros. unfold cache_dma. codes. Qed.
Lemma freshen32 S k : i32 (fst (freshen C S k)).
Proof. unfold freshen. codes. Qed.
Hint Resolve cache32 random32 dma32 freshen32 : codes.
Lemma readk32 S k n : i32 (fst (fst (fst (read_key C S k n)))).
Proof. unfold read_key. codes. Qed.
Hint Resolve readk32 : codes.
Lemma readc32 S k n : i32 (fst (fst (fst (read_key_checked C S k n)))).
Proof. unfold read_key_checked. codes. Qed.
Lemma enforce32 f r : i32 (enforce f r).
Proof. unfold enforce. codes. Qed.
Lemma evictc32 S k : i32 (fst (evict_checked C S k)).
Proof. unfold evict_checked. codes. Qed.
Lemma commit32 r S k : i32 r -> i32 (fst (commit_key C r S k)).
Proof. intros. unfold commit_key. codes. Qed.
Hint Resolve readc32 enforce32 evictc32 commit32 : codes.
Lemma commitc32 r S k : i32 r -> i32 (fst (commit_checked C r S k)).
Proof. intros. unfold commit_checked. codes. Qed.
Lemma erase32 r S k : i32 r -> i32 (fst (erase_checked C r S k)).
Proof. intros. unfold erase_checked. codes. Qed.
Lemma revoke32 r S k : i32 r -> i32 (fst (revoke_key C r S k)).
Proof. intros. unfold revoke_key. codes. Qed.
Lemma kek32 t e S k : env32 e -> i32 (fst (fst (resolve_kek C t e S k))).
Proof. intros (? & ? & ? & ? & ?). unfold resolve_kek. codes. Qed.
Lemma wrap32 e k a p : env32 e -> i32 (fst (gcm_wrap gcm_enc e k a p)).
Proof. intros (? & ? & ? & ? & ?). unfold gcm_wrap. codes. Qed.
Lemma unwrap32 k a p : i32 (fst (gcm_unwrap gcm_dec k a p)).
Proof. unfold gcm_unwrap. codes. Qed.
Lemma pick32 b S k : i32 (fst (pick_id C b S k)).
Proof. unfold pick_id. codes. Qed.
Hint Resolve commitc32 erase32 revoke32 kek32 wrap32 unwrap32 pick32 : codes.

Theorem step32 e client c S : env32 e -> (forall a d, i32 (fst (pub a d))) ->
  i32 (r_rc (fst (ks_step C crypt pub ots gcm_enc gcm_dec she_count e client (meant DL c) S))).
Proof.
  intros EN PB. pose proof EN as (L & NV & RN & DM & HW). unfold ks_step. destruct (is_ok (v_lock e)); cbn [negb]; [|exact L].
  destruct c; cbn [meant]; try (cbn [fst rrc r_rc]; solve [auto with codes]).
  - unfold h_cache. codes.
  - unfold h_cache_random. codes.
  - unfold h_cache_dma. codes.
  - unfold h_export_dma. codes.
  - unfold h_export. codes.
  - unfold h_export_public. codes.
  - unfold h_wrap. codes.
  - unfold h_wrap_export. codes.
  - unfold h_unwrap_export. codes.
  - unfold h_unwrap_cache. codes.
  - unfold h_data_wrap. codes.
  - unfold h_data_unwrap. codes.
Qed.
End Codes.
