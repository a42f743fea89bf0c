(** Object and key flags: wolfhsm/wh_common.h 67-120. *)
From Verif Require Import Base.

Definition F_NONMODIFIABLE  : N := 1.
Definition F_SENSITIVE      : N := 2.
Definition F_NONEXPORTABLE  : N := 4.
Definition F_LOCAL          : N := 8.
Definition F_EPHEMERAL      : N := 16.
Definition F_USAGE_ENCRYPT  : N := 32.
Definition F_USAGE_DECRYPT  : N := 64.
Definition F_USAGE_SIGN     : N := 128.
Definition F_USAGE_VERIFY   : N := 256.
Definition F_USAGE_WRAP     : N := 512.
Definition F_USAGE_DERIVE   : N := 1024.
Definition F_NONDESTROYABLE : N := 2048.
Definition F_TRUSTED        : N := 4096.
(** WH_NVM_FLAGS_SERVER_ONLY 112, WH_NVM_FLAGS_USAGE_ANY 94-97. *)
Definition F_SERVER_ONLY : N := F_TRUSTED.
Definition F_USAGE_ANY : N := 2016.

(** flags & bit != 0 *)
Definition has (flags bit : N) : bool := negb (N.eqb (N.land flags bit) 0).
(** flags & ~bits, on 16 bits *)
Definition clear (flags bits : N) : N := N.ldiff flags bits.
(** flags | bits *)
Definition setf (flags bits : N) : N := N.lor flags bits.

Lemma has_clear_self flags bit : has (clear flags bit) bit = false.
Proof.
  unfold has, clear. apply Bool.negb_false_iff, N.eqb_eq. apply N.bits_inj. intros i.
  rewrite N.land_spec, N.ldiff_spec, N.bits_0. destruct (N.testbit flags i), (N.testbit bit i); reflexivity.
Qed.

Lemma has_lor flags b1 b2 : has flags (N.lor b1 b2) = has flags b1 || has flags b2.
Proof.
  unfold has. rewrite N.land_lor_distr_r.
  destruct (N.eqb_spec (N.land flags b1) 0) as [E1|E1], (N.eqb_spec (N.land flags b2) 0) as [E2|E2]; cbn [negb orb].
  - rewrite E1, E2. reflexivity.
  - rewrite E1, N.lor_0_l. destruct (N.eqb_spec (N.land flags b2) 0); [congruence|reflexivity].
  - rewrite E2, N.lor_0_r. destruct (N.eqb_spec (N.land flags b1) 0); [congruence|reflexivity].
  - destruct (N.eqb_spec (N.lor (N.land flags b1) (N.land flags b2)) 0) as [E|E]; auto.
    apply N.lor_eq_0_iff in E as [E _]. congruence.
Qed.
