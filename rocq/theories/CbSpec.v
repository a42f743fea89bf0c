(** What the wolfCrypt callback is asked to do and what a client function does, in the
    same terms: an operation with its parameters, the keys, the bytes read and the room
    for what is written.  Nothing here says how the one leads to the other. *)
From Verif Require Import CbModel.
Local Open Scope N_scope.

Inductive op :=
| OAes (m : aes_mode) (enc : bool) | OGcm (enc : bool)
| ORsaGen (size e : N) | ORsa (type : N) | ORsaSize
| OEccGen (size curve : N) | OEcdh | OEccSign | OEccVerify | OEccPub | OEccCheckPub (order priv : bool) | OEccCheckPriv
| OX25519Gen (size : N) | OX25519 (endian : N)
| OEdGen | OEdSign (type : N) | OEdVerify (type : N)
| OKemGen (level : N) | OEncaps | ODecaps
| OHbsGen (a : hbs) | OHbsSign (a : hbs) | OHbsVerify (a : hbs) | OHbsLeft (a : hbs)
| ODsaGen (level : N) | ODsaSign (prehash : N) | ODsaVerify (prehash : N) | ODsaCheck
| ORandom | OCmac (type : N) | OHash (h : hash_alg)
| OHkdf (hash keyid : N) | OCmacKdf (saltid zid : N)
| OForeign.

(** Bytes at an address; at NULL there are none. *)
Definition bytes_at (p : ptr) (n : N) : ptr * N := (p, if p =? 0 then 0 else n).
(** Room behind a pointer to a length; none without that pointer. *)
Definition room (o : option N) : N := match o with Some n => n | None => 0 end.

Record task := mkTask { t_op : op; t_keys : list ptr; t_in : list (ptr * N); t_out : list (ptr * N) }.

(** [results]: where a result of fixed size goes. *)
Definition result (p : ptr) : ptr * N := (p, 1).

Definition asked (i : info) : task :=
  match i with
  | IAes m enc aes inp len out => mkTask (OAes m enc) [aes] [bytes_at inp len] [(out, len)]
  | IGcm enc aes inp len iv ivl aad aadl tag tagl out =>
      if enc then mkTask (OGcm true) [aes] [bytes_at inp len; bytes_at iv ivl; bytes_at aad aadl] [(out, len); (tag, tagl)]
      else mkTask (OGcm false) [aes] [bytes_at inp len; bytes_at iv ivl; bytes_at aad aadl; bytes_at tag tagl] [(out, len)]
  | IRsaGen key size e => mkTask (ORsaGen size e) [key] [] []
  | IRsa key type inp il out ol => mkTask (ORsa type) [key] [bytes_at inp il] [(out, room ol)]
  | IRsaSize key size => mkTask ORsaSize [key] [] [result size]
  | IEccGen key size curve => mkTask (OEccGen size curve) [key] [] []
  | IEcdh priv pub out ol => mkTask OEcdh [priv; pub] [] [(out, room ol)]
  | IEccSign key inp il out ol => mkTask OEccSign [key] [bytes_at inp il] [(out, room ol)]
  | IEccVerify key sig sl hash hl res => mkTask OEccVerify [key] [bytes_at hash hl; bytes_at sig sl] [result res]
  | IEccPub key out ol => mkTask OEccPub [key] [] [(out, room ol)]
  | IEccCheckPub key pub pl order priv => mkTask (OEccCheckPub order priv) [key] [bytes_at pub pl] []
  | IEccCheckPriv key => mkTask OEccCheckPriv [key] [] []
  | IX25519Gen key size => mkTask (OX25519Gen size) [key] [] []
  | IX25519 priv pub endian out ol => mkTask (OX25519 endian) [priv; pub] [] [(out, room ol)]
  | IEdGen key => mkTask OEdGen [key] [] []
  | IEdSign key inp il type cx cxl out ol =>
      mkTask (OEdSign type) [key] [bytes_at inp il; bytes_at cx cxl] [(out, room ol)]
  | IEdVerify key sig sl msg ml type cx cxl res =>
      mkTask (OEdVerify type) [key] [bytes_at msg ml; bytes_at sig sl; bytes_at cx cxl] [result res]
  | IKemGen true key level => mkTask (OKemGen level) [key] [] []
  | IEncaps true key ct ctl ss ssl => mkTask OEncaps [key] [] [(ct, ctl); (ss, ssl)]
  | IDecaps true key ct ctl ss ssl => mkTask ODecaps [key] [bytes_at ct ctl] [(ss, ssl)]
  | IHbsGen (Some a) key => mkTask (OHbsGen a) [key] [] []
  | IHbsSign (Some a) key msg ml out ol => mkTask (OHbsSign a) [key] [bytes_at msg ml] [(out, room ol)]
  | IHbsVerify (Some a) key sig sl msg ml res =>
      mkTask (OHbsVerify a) [key] [bytes_at msg ml; bytes_at sig sl] [result res]
  | IHbsLeft (Some a) key _ => mkTask (OHbsLeft a) [key] [] []
  | IDsaGen true key level _ => mkTask (ODsaGen level) [key] [] []
  | IDsaSign true key inp il out ol cx cxl ph =>
      mkTask (ODsaSign ph) [key] [bytes_at inp il; bytes_at cx cxl] [(out, room ol)]
  | IDsaVerify true key sig sl msg ml res cx cxl ph =>
      mkTask (ODsaVerify ph) [key] [bytes_at msg ml; bytes_at sig sl; bytes_at cx cxl] [result res]
  | IDsaCheck true key pub pl => mkTask ODsaCheck [key] [bytes_at pub pl] []
  | IRng out size | ISeed out size => mkTask ORandom [] [] [(out, size)]
  | ICmac cmac type key kl inp il out ol =>
      mkTask (OCmac type) [cmac] [bytes_at key kl; bytes_at inp il] [(out, room ol)]
  | IHash h _ sha inp len digest => mkTask (OHash h) [sha] [bytes_at inp len] [result digest]
  | IHkdf h key kl salt sl inf il out ol =>
      mkTask (OHkdf h 0) [] [bytes_at key kl; bytes_at salt sl; bytes_at inf il] [(out, ol)]
  | ICmacKdf salt sl z zl fixed fl out ol =>
      mkTask (OCmacKdf 0 0) [] [bytes_at salt sl; bytes_at z zl; bytes_at fixed fl] [(out, ol)]
  | _ => mkTask OForeign [] [] []
  end.

(** The arguments of the client functions as wolfhsm/wh_client_crypto.h documents them. *)
Definition does (c : call) : task :=
  match c with
  | KAes _ m aes enc inp len out => mkTask (OAes m enc) [aes] [bytes_at inp len] [(out, len)]
  | KGcm _ aes enc inp len iv ivl aad aadl dtag etag tagl out =>
      if enc then mkTask (OGcm true) [aes] [bytes_at inp len; bytes_at iv ivl; bytes_at aad aadl] [(out, len); (etag, tagl)]
      else mkTask (OGcm false) [aes] [bytes_at inp len; bytes_at iv ivl; bytes_at aad aadl; bytes_at dtag tagl] [(out, len)]
  | KRsaGen size e key => mkTask (ORsaGen size e) [key] [] []
  | KRsa key type inp il out ol => mkTask (ORsa type) [key] [bytes_at inp il] [(out, ol)]
  | KRsaSize key size => mkTask ORsaSize [key] [] [result size]
  | KEccGen size curve key => mkTask (OEccGen size curve) [key] [] []
  | KEcdh priv pub out ol => mkTask OEcdh [priv; pub] [] [(out, ol)]
  | KEccSign key hash hl sig sl => mkTask OEccSign [key] [bytes_at hash hl] [(sig, sl)]
  | KEccVerify key sig sl hash hl res => mkTask OEccVerify [key] [bytes_at hash hl; bytes_at sig sl] [result res]
  | KEccPub key out ol => mkTask OEccPub [key] [] [(out, ol)]
  | KEccCheckPub key pub pl order priv => mkTask (OEccCheckPub order priv) [key] [bytes_at pub pl] []
  | KX25519Gen size key => mkTask (OX25519Gen size) [key] [] []
  | KX25519 priv pub endian out ol => mkTask (OX25519 endian) [priv; pub] [] [(out, ol)]
  | KEdGen key => mkTask OEdGen [key] [] []
  | KEdSign _ key msg ml type cx cxl sig sl =>
      mkTask (OEdSign type) [key] [bytes_at msg ml; bytes_at cx cxl] [(sig, sl)]
  | KEdVerify _ key sig sl msg ml type cx cxl res =>
      mkTask (OEdVerify type) [key] [bytes_at msg ml; bytes_at sig sl; bytes_at cx cxl] [result res]
  | KKemGen _ level key => mkTask (OKemGen level) [key] [] []
  | KEncaps _ key ct ctl ss ssl => mkTask OEncaps [key] [] [(ct, ctl); (ss, ssl)]
  | KDecaps _ key ct ctl ss ssl => mkTask ODecaps [key] [bytes_at ct ctl] [(ss, ssl)]
  | KHbsGen a key => mkTask (OHbsGen a) [key] [] []
  | KHbsSign a msg ml sig sl key => mkTask (OHbsSign a) [key] [bytes_at msg ml] [(sig, room sl)]
  | KHbsVerify a sig sl msg ml res key => mkTask (OHbsVerify a) [key] [bytes_at msg ml; bytes_at sig sl] [result res]
  | KHbsLeft a key => mkTask (OHbsLeft a) [key] [] []
  | KDsaGen _ level _ key => mkTask (ODsaGen level) [key] [] []
  | KDsaSign _ inp il out ol key cx cxl ph =>
      mkTask (ODsaSign ph) [key] [bytes_at inp il; bytes_at cx cxl] [(out, room ol)]
  | KDsaVerify _ sig sl msg ml res key cx cxl ph =>
      mkTask (ODsaVerify ph) [key] [bytes_at msg ml; bytes_at sig sl; bytes_at cx cxl] [result res]
  | KDsaCheck _ key pub pl => mkTask ODsaCheck [key] [bytes_at pub pl] []
  | KRng _ out size => mkTask ORandom [] [] [(out, size)]
  | KCmac _ cmac type key kl inp il out ol =>
      mkTask (OCmac type) [cmac] [bytes_at key kl; bytes_at inp il] [(out, room ol)]
  | KHash _ h sha inp len out => mkTask (OHash h) [sha] [bytes_at inp len] [result out]
  | KHkdf h kid key kl salt sl inf il out ol =>
      mkTask (OHkdf h kid) [] [bytes_at key kl; bytes_at salt sl; bytes_at inf il] [(out, ol)]
  | KCmacKdf sid salt sl zid z zl fixed fl out ol =>
      mkTask (OCmacKdf sid zid) [] [bytes_at salt sl; bytes_at z zl; bytes_at fixed fl] [(out, ol)]
  end.

(** The buffers of the first task lie in those of the second. *)
Definition within (a b : list (ptr * N)) : Prop := Forall2 (fun x y => fst x = fst y /\ snd x <= snd y) a b.

(** All lengths of the requests whose client function counts with 16 bits fit. *)
Definition fits (i : info) : Prop :=
  match i with
  | IRsa _ _ _ il _ ol => il < 65536 /\ room ol < 65536
  | IEcdh _ _ _ ol | IX25519 _ _ _ _ ol | IEccPub _ _ ol => room ol < 65536
  | IEccSign _ _ il _ ol => il < 65536 /\ room ol < 65536
  | IEccVerify _ _ sl _ hl _ => sl < 65536 /\ hl < 65536
  | IX25519Gen _ size => size < 65536
  | _ => True
  end.

(** The client function works on the caller's buffers by address. *)
Definition by_dma (c : call) : bool :=
  match c with
  | KAes d _ _ _ _ _ _ | KGcm d _ _ _ _ _ _ _ _ _ _ _ _ | KEdSign d _ _ _ _ _ _ _ _ | KEdVerify d _ _ _ _ _ _ _ _ _
  | KKemGen d _ _ | KEncaps d _ _ _ _ _ | KDecaps d _ _ _ _ _ | KDsaGen d _ _ _ | KDsaSign d _ _ _ _ _ _ _ _
  | KDsaVerify d _ _ _ _ _ _ _ _ _ | KDsaCheck d _ _ _ | KRng d _ _ | KCmac d _ _ _ _ _ _ _ _ | KHash d _ _ _ _ _ => d
  | KHbsGen _ _ | KHbsSign _ _ _ _ _ _ | KHbsVerify _ _ _ _ _ _ _ | KHbsLeft _ _ => true
  | _ => false
  end.

(** What wolfHSM takes over from wolfCrypt ([d]: DMA preferred). *)
Definition offered (d : bool) (i : info) : bool :=
  match i with
  | IEccCheckPriv _ | IOther => false
  | IKemGen k _ _ | IEncaps k _ _ _ _ _ | IDecaps k _ _ _ _ _ => k
  | IDsaGen k _ _ _ | IDsaSign k _ _ _ _ _ _ _ _ | IDsaVerify k _ _ _ _ _ _ _ _ _ | IDsaCheck k _ _ _ => k
  | IHbsGen a _ | IHbsSign a _ _ _ _ _ | IHbsVerify a _ _ _ _ _ _ | IHbsLeft a _ _ =>
      d && match a with Some _ => true | None => false end
  | IHash h keccak sha _ _ _ =>
      negb (match h with SHA3_224 | SHA3_256 | SHA3_384 | SHA3_512 => negb (sha =? 0) && keccak | _ => false end)
  | IEccCheckPub _ _ pl _ _ => pl <? 65536
  | _ => true
  end.

(** The client function did what it was asked for. *)
Definition succeeded (c : call) (a : answer) : Prop :=
  match c with KHbsLeft _ _ => (0 <= a_rc a)%Z | _ => a_rc a = OK end.
(** It says that it does not do such things at all. *)
Definition not_done_here (a : answer) : Prop := a_rc a = UNAVAILABLE \/ a_rc a = NOTIMPL.

(** The lengths wolfCrypt must find afterwards, if the client function does not store
    them itself. *)
Definition lengths (i : info) (a : answer) : list (slot * N) :=
  match i with
  | IRsa _ _ _ _ _ (Some _) | IEcdh _ _ _ (Some _) | IEccSign _ _ _ _ (Some _) | IEccPub _ _ (Some _)
  | IX25519 _ _ _ _ (Some _) | IEdSign _ _ _ _ _ _ _ (Some _) => [(OutLen, a_len a)]
  | IEncaps _ _ _ _ _ _ => [(CtLen, a_len a); (SsLen, a_len2 a)]
  | IDecaps _ _ _ _ _ _ => [(SsLen, a_len a)]
  | IHbsLeft _ _ _ => [(SigsLeft, Z.to_N (a_rc a))]
  | _ => []
  end.
(** The same when the room did not suffice: the length needed, where there is a pointer
    for it. *)
Definition needed (i : info) (a : answer) : list (slot * N) :=
  match i with
  | IRsa _ _ _ _ _ (Some _) | IEcdh _ _ _ (Some _) | IEccSign _ _ _ _ (Some _) | IEccPub _ _ (Some _)
  | IX25519 _ _ _ _ (Some _) | IEdSign _ _ _ _ _ _ _ (Some _) => [(OutLen, a_len a)]
  | _ => []
  end.
