(** The random generator of the SHE extension, as the AUTOSAR SHE specification
    describes it and as its users see it: by requests, answers and the stored seed.
    The state of the generator is a key and a block. *)
From Verif Require Import Base NvmSpec Flags KeyId Store NvmReqModel CounterModel KsModel KsReq KsSys KsSpec SheModel SheSys SheSpec.
Local Open Scope N_scope.

Section Spec.
Variable C : kscfg.
Variable crypt : cop -> list N -> list N -> Z * list N.
Variable pub : N -> list N -> Z * list N.
Variable ots : list N -> list N -> option (list N * list N).
Variable gcm_enc : list N -> list N -> N -> list N -> option (list N).
Variable gcm_dec : list N -> list N -> N -> list N -> option (list N).
Variable max_read : nat.
Variable aes : list N -> list N -> list N.
Variable cbc_enc cbc_dec : list N -> list N -> list N.
Variable cmac : list N -> list N -> list N.
Variable use_op : sop -> list N -> list N -> option (list N).
Notation step := (hstep C crypt pub ots gcm_enc gcm_dec max_read aes cbc_enc cbc_dec cmac use_op).

(** The three keys and functions of the specification.  [cbc_enc k b] of one block
    is AES of the block (zero vector). *)
Definition seed_key (secret : list N) : list N := mp16 aes (secret ++ PRNG_SEED_C).
Definition prng_key (secret : list N) : list N := mp16 aes (secret ++ PRNG_C).
Definition next_seed (secret seed : list N) : list N := cbc_enc (seed_key secret) seed.
Definition compress (block entropy : list N) : list N := mp16 aes (block ++ entropy).

Definition gen : Type := list N * list N.        (* key, state *)
Definition answer_of (a : option sresp) : list N := match a with Some r => sr_out r | None => [] end.

(** One event seen from the generator of server context [i]; [Y] and [Y'] are the
    device before and after, [a] the answer. *)
Definition gen_by (i : nat) (ev : hev) (a : option sresp) (Y Y' : hsys) (g g' : option gen) : Prop :=
  match ev with
  | HShe j client _ q =>
      if Nat.eqb j i then
        match q with
        | SInitRnd =>
            if rc_is a OK then
              (* only once; the seed moves on, in NVM, and is where the stream begins *)
              g = None /\
              exists ms sec mo old m seed k,
                slot_key C Y i client SLOT_SECRET = Some (ms, sec) /\
                (slot_key C Y i client SLOT_SEED = Some (mo, old) \/ in_nvm (hy_ks Y) (she_id C client SLOT_SEED) = Some (mo, old)) /\
                in_nvm (hy_ks Y') (she_id C client SLOT_SEED) = Some (m, seed) /\ g' = Some (k, seed) /\
                (length sec = 16%nat -> k = prng_key sec /\ (length old = 16%nat -> seed = next_seed sec old))
            else g' = g
        | SRnd =>
            if rc_is a OK
            then exists k s, g = Some (k, s) /\ g' = Some (k, cbc_enc k s) /\ answer_of a = cbc_enc k s
            else g' = g
        | SExtendSeed x =>
            if rc_is a OK
            then exists k s, g = Some (k, s) /\ g' = Some (k, compress s (exactly 16 x))
            else g' = g \/ exists k s, g = Some (k, s) /\ g' = Some (k, compress s (exactly 16 x))
        | _ => g' = g
        end
      else g' = g
  | HSys (SServer j) => if Nat.eqb j i then g' = None else g' = g
  | HSys SReset => g' = None
  | _ => g' = g
  end.
Inductive generates (i : nat) : list hev -> hsys -> option gen -> option gen -> Prop :=
| g_nil Y g : generates i [] Y g g
| g_cons ev evs Y g g1 g2 :
    gen_by i ev (fst (step ev Y)) Y (snd (step ev Y)) g g1 ->
    generates i evs (snd (step ev Y)) g1 g2 -> generates i (ev :: evs) Y g g2.

(** The blocks handed out by context [i], in order. *)
Fixpoint blocks (i : nat) (evs : list hev) (Y : hsys) : list (list N) :=
  match evs with
  | [] => []
  | ev :: r =>
      let '(a, Y1) := step ev Y in
      match ev with
      | HShe j _ _ SRnd => if Nat.eqb j i && rc_is a OK then answer_of a :: blocks i r Y1 else blocks i r Y1
      | _ => blocks i r Y1
      end
  end.
(** Events that leave the stream of context [i] as it is: no entropy, no new
    set-up. *)
Definition undisturbed (i : nat) (ev : hev) : Prop :=
  match ev with
  | HShe j _ _ (SExtendSeed _) => j <> i
  | HSys (SServer j) => j <> i
  | HSys SReset => False
  | _ => True
  end.

(** ** Sessions: where the streams begin *)
(** The states in which streams from seed [k] begin: the seed stored by each
    initialisation answered OK. *)
Fixpoint starts (k : N) (evs : list hev) (Y : hsys) : list (list N) :=
  match evs with
  | [] => []
  | ev :: r =>
      let '(a, Y1) := step ev Y in
      match ev with
      | HShe i client _ SInitRnd =>
          if N.eqb (she_id C client SLOT_SEED) k && rc_is a OK
          then match in_nvm (hy_ks Y1) k with Some (_, d) => d :: starts k r Y1 | None => starts k r Y1 end
          else starts k r Y1
      | _ => starts k r Y1
      end
  end.
(** Initialisations asked for. *)
Definition is_init (ev : hev) : bool := match ev with HShe _ _ _ SInitRnd => true | _ => false end.
Definition inits (evs : list hev) : nat := length (filter is_init evs).
(** Later in the sequence. *)
Fixpoint later (p : nat) (ns : list nat) : Prop :=
  match ns with [] => True | n :: r => (p < n)%nat /\ later n r end.

(** Histories in which the slots of [client0] are served by context [i0] alone, and
    the secret key and the seed are not replaced from outside: no key update of
    them, no entropy, no NVM write, nothing unwrapped into the cache.  If the slots
    are in the cache shared by the contexts, [i0] is set up again only together with
    the device. *)
Definition alone (i0 : nat) (client0 : N) (ev : hev) : Prop :=
  match ev with
  | HShe i client e q =>
      (i = i0 /\ match q with
                 | SExtendSeed _ => False
                 | SLoadKey m1 _ _ => pop_id (exactly 16 m1) <> SLOT_SECRET /\ pop_id (exactly 16 m1) <> SLOT_SEED
                 | _ => True
                 end) \/
      (forall s s', she_id C client s <> she_id C client0 s')
  | HSys (SKey _ _ _ (KUnwrapCache _ _)) => False
  | HSys (SNvm _ q) => ~ nvm_writes q (she_id C client0 SLOT_SECRET) /\ ~ nvm_writes q (she_id C client0 SLOT_SEED)
  | HSys (SServer i) => i = i0 -> is_global C (she_id C client0 SLOT_SEED) = false
  | _ => True
  end.
End Spec.
