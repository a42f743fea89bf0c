(** Computable lives, used to exhibit concrete cases. *)
From Verif Require Import Base Flash BaseLemmas FlashWp NvmFlashModel NvmSpec NvmInv
  NvmFlashProof NvmFlashOps NvmHistory NvmTheorems.

Inductive action :=
| ABoot | AOp (o : nvm_op) | ACut (o : nvm_op) (n : nat) | ABootCut (n : nat) | AOff.

(** Memory after the first [n] callbacks of [p]. *)
Fixpoint cut_at {A} (C : cfg) (n : nat) (p : prog A) (f : flash) : flash :=
  match n, p with
  | S k, Call c kk => let (f', r) := fstep C f c in cut_at C k (kk r) f'
  | _, _ => f
  end.

Lemma cut_at_crash {A} C fl n : forall (p : prog A) f, crash C fl p f (cut_at C n p f).
Proof.
  induction n as [|n IH]; intros p f; cbn [cut_at]; [constructor|].
  destruct p as [a|c k]; [constructor|].
  apply crash_next. destruct (fstep C f c) as [f' r]. cbn [fst snd]. apply IH.
Qed.

Definition sim_state : Type := (flash * option ctx * list event)%type.

(** Actions that do not apply are skipped. *)
Definition sim_step (C : cfg) (st : sim_state) (a : action) : sim_state :=
  let '(f, ox, evs) := st in
  match a, ox with
  | ABoot, None => let '((rc, x), f') := run C (nf_init C) f in
                   if is_ok rc then (f', Some x, EvBoot :: evs) else st
  | AOp o, Some x => let '((r, x'), f') := run C (op_run C x o) f in (f', Some x', EvOp o r :: evs)
  | ACut o n, Some x => (cut_at C n (op_run C x o) f, None, EvCut o :: evs)
  | ABootCut n, None => (cut_at C n (nf_init C) f, None, EvBootCut :: evs)
  | AOff, _ => (f, None, EvOff :: evs)
  | _, _ => st
  end.
Definition sim (C : cfg) (f0 : flash) (acts : list action) : sim_state :=
  fold_left (sim_step C) acts (f0, None, []).

Definition action_ok (a : action) : Prop :=
  match a with AOp o | ACut o _ => op_ok o | _ => True end.

Lemma sim_life C f0 acts : Forall action_ok acts ->
  life C f0 (snd (sim C f0 acts)) (fst (fst (sim C f0 acts))) (snd (fst (sim C f0 acts))).
Proof.
  unfold sim. intros HA.
  assert (G : forall st, life C f0 (snd st) (fst (fst st)) (snd (fst st)) ->
     let st' := fold_left (sim_step C) acts st in life C f0 (snd st') (fst (fst st')) (snd (fst st'))).
  { induction acts as [|a acts IH]; intros st L; cbn [fold_left]; auto.
    inversion HA as [|? ? H1 H2]; subst. apply IH; auto. clear IH HA H2.
    destruct st as [[f ox] evs]. cbn [fst snd] in L.
    destruct a, ox as [x|]; cbn [sim_step]; auto.
    - destruct (run C (nf_init C) f) as [[rc x] f'] eqn:E. destruct (is_ok rc) eqn:EO; auto.
      apply Z.eqb_eq in EO. cbn [fst snd]. eapply life_boot; eauto.
      pose proof (run_exec C false (nf_init C) f) as X. rewrite E in X. cbn [fst snd] in X. rewrite <- EO. exact X.
    - destruct (run C (op_run C x o) f) as [[r x'] f'] eqn:E. cbn [fst snd]. eapply life_op; eauto.
      pose proof (run_exec C false (op_run C x o) f) as X. rewrite E in X. exact X.
    - cbn [fst snd]. eapply life_crash; eauto. apply cut_at_crash.
    - cbn [fst snd]. eapply life_boot_crash; eauto. apply cut_at_crash.
    - cbn [fst snd]. eapply life_off; eauto.
    - cbn [fst snd]. eapply life_off; eauto. }
  apply G. constructor.
Qed.

(** A device: 3 object slots, 24 + 6 units per partition, erased to 0xFF. *)
Definition C0 : cfg := mkCfg 3 30 255 true.
Definition blank0 : flash := fun _ => erased_unit C0.

Lemma C0_ok : cfg_ok C0.
Proof. unfold cfg_ok. repeat split; vm_compute; auto; lia. Qed.
Lemma blank0_pre : Pre_ok C0 blank0.
Proof. split; unfold hdr_bad; cbn; vm_compute; auto. Qed.

Definition lab : list N := repeat 65%N 24.
Definition mt (id flags : N) : meta := mkMeta id 0 flags 0 lab.
