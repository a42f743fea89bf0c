(** What C67 asks of the client library.  [c_dl] is WOLFHSM_CFG_COMM_DATA_LEN. *)
From Verif Require Import Base ReqModel.
Local Open Scope N_scope.

(** Configurations: the sizes that fit the types of the program, with room for
    the fixed part of every request. *)
Definition sane (cf : conf) : Prop :=
  128 <= c_dl cf < 65536 /\ c_useradd cf <= c_dl cf /\ c_kwdata cf + 8 < 2 ^ 32 /\
  (c_sizet cf = 2 ^ 32 \/ c_sizet cf = 2 ^ 64).

(** The fixed fields: [fixed] bytes, an area for a label zero. *)
Definition label_area (c : call) : option N :=
  match c with
  | KeyCache _ _ | KeyCacheRandom _ _ => Some 16
  | KeyCacheDma _ => Some 26
  | CertAdd _ _ => Some 10
  | NvmAdd _ _ => Some 8
  | Hkdf _ _ _ _ | CmacKdf _ _ _ _ _ => Some 44
  | _ => None
  end.
Definition good_fields (cf : conf) (enc : call -> list N) : Prop :=
  forall c, len (enc c) = fixed cf c /\
    forall o, label_area c = Some o -> firstn 24 (skipn (N.to_nat o) (enc c)) = repeat 0 24.

(** The bytes an argument stands for. *)
Definition data (a : arg) : list N := match a with Buf b => b | Null _ => [] end.
Definition first (k : nat) (a : arg) : list N := firstn k (data a).

(** A CMAC call without a key of its own and without a key on the server uses the
    key its context was given before. *)
Definition cmac_key (named : bool) (cached : list N) (key : arg) : list N :=
  match key, named with Null 0, false => cached | _, _ => data key end.

(** The data of the caller that follow the fixed fields, in their order
    (wolfhsm/wh_message_*.h, the comments "Data follows"). *)
Definition follows (c : call) : list (list N) :=
  match c with
  | Echo d => [data d]
  | KeyCache _ key => [data key]
  | KeyCacheRandom _ _ | KeyCacheDma _ => []
  | KeyWrap meta key => [data meta; data key]
  | KeyUnwrapExport w | KeyUnwrapCache w => [data w]
  | DataWrap d | DataUnwrap d => [data d]
  | Login _ cred | UserAdd _ cred => [data cred]
  | SetCred cur new => [data cur; data new]
  | CertAdd _ cert | CertVerify cert | CertAcert _ cert => [data cert]
  | CertVerifyRoots roots cert => [data roots; data cert]
  | NvmAdd _ d => [data d]
  | SheEcb d | SheCbc _ d | SheMac d => [data d]
  | SheVerMac msg mac => [data msg; first 16 mac]
  | SheUid _ => []
  | ShePlain key => [first 16 key]
  | SheSeed e => [data e]
  | AesCtr d key iv tmp => [data d; key; iv; tmp]
  | AesEcb d key => [data d; key]
  | AesCbc d key iv => [data d; key; iv]
  | AesGcm true d key iv aad _ => [data d; key; data iv; data aad]
  | AesGcm false d key iv aad tag => [data d; key; data iv; data aad; data tag]
  | AesCtrDma named key iv tmp => [iv; tmp; if named then [] else key]
  | AesEcbDma named key => [if named then [] else key]
  | AesCbcDma named key iv => [iv; if named then [] else key]
  | AesGcmDma true named key iv _ => [data iv; if named then [] else key]
  | AesGcmDma false named key iv tag => [data iv; data tag; if named then [] else key]
  | CmacGen named cached key d _ | CmacUpd named cached key d => [data d; cmac_key named cached key]
  | CmacFin named cached | CmacFinDma named cached => [cmac_key named cached (Null 0)]
  | CmacGenDma named cached key _ | CmacUpdDma named cached key _ => [cmac_key named cached key]
  | Hkdf _ key salt info => [data key; data salt; data info]
  | CmacKdf _ salt z info _ => [data salt; data z; data info]
  | RsaReq _ d | RsaFun d => [data d]
  | EccSignReq _ hash | EccSign hash => [data hash]
  | EccVerifyReq _ sig hash | EccVerify sig hash => [data sig; data hash]
  | EdSign true _ _ ctx => [data ctx]
  | EdSign false _ msg ctx => [data msg; data ctx]
  | EdVerify true _ _ _ ctx => [data ctx]
  | EdVerify false _ sig msg ctx => [data sig; data msg; data ctx]
  | MlSign true _ ctx => [data ctx]
  | MlSign false msg ctx => [data msg; data ctx]
  | MlVerify true _ _ ctx => [data ctx]
  | MlVerify false sig msg ctx => [data sig; data msg; data ctx]
  | KemDecaps ct => [data ct]
  end.

(** The data of the caller that are among the fixed fields: a label, cut off after
    24 bytes, the vector of SHE CBC and the SHE UID. *)
Definition among (c : call) : option (N * list N) :=
  match c with
  | KeyCache l _ | KeyCacheRandom l _ => Some (16, first 24 l)
  | KeyCacheDma l => Some (26, first 24 l)
  | CertAdd l _ => Some (10, first 24 l)
  | NvmAdd l _ => Some (8, first 24 l)
  | Hkdf l _ _ _ | CmacKdf l _ _ _ _ => Some (44, first 24 l)
  | SheCbc iv _ => Some (8, first 16 iv)
  | SheUid uid => Some (0, first 15 uid)
  | _ => None
  end.

(** [d] in the place of the bytes of [h] from [o] on. *)
Definition with_at (h : list N) (o : N) (d : list N) : list N :=
  firstn (N.to_nat o) h ++ d ++ skipn (N.to_nat o + length d) h.

(** The message the caller asked for. *)
Definition message (enc : call -> list N) (c : call) : list N :=
  (match among c with Some (o, d) => with_at (enc c) o d | None => enc c end) ++ concat (follows c).

(** ** Arguments a call takes *)
Definition supplied (a : arg) : Prop := given a = true \/ size a = 0.
Definition nonempty (a : arg) : Prop := given a = true /\ 0 < size a.
Definition at_least (k : N) (a : arg) : Prop := given a = true /\ k <= size a.
Definition name (a : arg) : Prop := given a = true /\ 1 <= size a <= 31.
Definition tag_ok (t : N) : Prop := 4 <= t <= 16.
Definition ed_ok (ty : N) (ctx : arg) : Prop :=
  supplied ctx /\ (ty = 255 /\ ctx = Null 0 \/ (ty = 0 \/ ty = 1) /\ size ctx <= 255).

Definition acceptable (cf : conf) (c : call) : Prop :=
  match c with
  | Echo d => supplied d
  | KeyCache _ key => nonempty key
  | KeyCacheRandom _ sz => sz <> 0
  | KeyCacheDma l => supplied l
  | KeyWrap meta key => given meta = true /\ nonempty key /\ size key <= c_kwkey cf
  | KeyUnwrapExport w | KeyUnwrapCache w => nonempty w /\ size w <= c_kwkey cf
  | DataWrap d | DataUnwrap d => nonempty d /\ size d <= c_kwdata cf
  | Login user cred | UserAdd user cred => name user /\ supplied cred
  | SetCred cur new =>
      supplied cur /\ supplied new /\ 2 * size cur <= c_dl cf - 8 /\ 2 * size new <= c_dl cf - 8
  | CertAdd _ cert | CertVerify cert => nonempty cert
  | CertVerifyRoots roots cert => nonempty roots /\ size roots <= 2 * c_roots cf /\ nonempty cert
  | CertAcert root cert => root <> 0 /\ nonempty cert
  | NvmAdd l d => supplied l /\ size l <= 24 /\ supplied d
  | SheEcb d | SheMac d => at_least 16 d
  | SheCbc iv d => at_least 16 iv /\ at_least 16 d
  | SheVerMac msg mac => at_least 16 msg /\ at_least 16 mac
  | SheUid uid => at_least 15 uid
  | ShePlain key => at_least 16 key
  | SheSeed e => given e = true /\ size e = 16
  | AesCtr d _ _ _ => supplied d
  | AesEcb d _ => supplied d /\ size d mod 16 = 0
  | AesCbc d _ _ => given d = true /\ size d mod 16 = 0
  | AesGcm e d _ iv aad tag =>
      supplied d /\ supplied iv /\ supplied aad /\ (e = false -> given tag = true)
  | AesCtrDma _ _ _ _ | AesEcbDma _ _ | AesCbcDma _ _ _ => True
  | AesGcmDma e _ _ iv tag => supplied iv /\ (e = false -> given tag = true)
  | CmacGen _ _ key d tag =>
      nonempty d /\ supplied key /\ tag_ok tag /\ size key <= 32 /\ size d <= c_dl cf - 68 - 32
  | CmacUpd _ _ key d => supplied d /\ supplied key /\ size key <= 32
  | CmacFin _ _ | CmacFinDma _ _ => True
  | CmacGenDma _ _ key tag => supplied key /\ tag_ok tag /\ size key <= 32
  | CmacUpdDma _ _ key _ => supplied key /\ size key <= 32
  | Hkdf _ key salt info => supplied key /\ supplied salt /\ supplied info
  | CmacKdf _ salt z info out => supplied salt /\ supplied z /\ supplied info /\ out <> 0
  | RsaReq named d => supplied d /\ named = true
  | RsaFun d => supplied d
  | EccSignReq named hash => supplied hash /\ named = true
  | EccSign hash => supplied hash
  | EccVerifyReq named sig hash => supplied sig /\ supplied hash /\ named = true
  | EccVerify sig hash => supplied sig /\ supplied hash
  | EdSign _ ty msg ctx => supplied msg /\ ed_ok ty ctx
  | EdVerify _ ty sig msg ctx => given sig = true /\ given msg = true /\ ed_ok ty ctx
  | MlSign _ msg ctx => supplied msg /\ supplied ctx
  | MlVerify _ sig msg ctx => supplied sig /\ supplied msg /\ supplied ctx
  | KemDecaps ct => supplied ct
  end.

(** The request fits a message. *)
Definition fits (cf : conf) (c : call) : Prop := fixed cf c + len (concat (follows c)) <= c_dl cf.

(** Calls for which there is nothing to ask the server. *)
Definition nothing_to_do (c : call) : Prop :=
  match c with
  | AesEcb d _ => size d = 0
  | AesCbc d _ _ => given d = true /\ size d = 0
  | CmacUpd named cached key d =>
      size d = 0 /\ size key = 0 /\ cmac_key named cached key = []
  | CmacUpdDma named cached key input =>
      input = 0 /\ size key = 0 /\ cmac_key named cached key = []
  | _ => False
  end.

(** ** What the types of the parameters admit of, and what the key objects hold *)
Definition u16_arg (a : arg) : Prop := size a < 2 ^ 16.
Definition u32_arg (a : arg) : Prop := size a < 2 ^ 32.
Definition in_range (c : call) : Prop :=
  match c with
  | Echo d => u16_arg d
  | KeyCache l key => u16_arg l /\ u16_arg key
  | KeyCacheRandom l _ | KeyCacheDma l => u16_arg l
  | KeyWrap meta key => (given meta = true -> size meta = 32) /\ u16_arg key
  | KeyUnwrapExport w | KeyUnwrapCache w => u16_arg w
  | DataWrap d | DataUnwrap d => u32_arg d
  | Login _ cred | UserAdd _ cred => u16_arg cred
  | SetCred cur new => u16_arg cur /\ u16_arg new
  | CertAdd l cert => u16_arg l /\ u32_arg cert
  | CertVerify cert | CertAcert _ cert => u32_arg cert
  | CertVerifyRoots roots cert => (exists k, size roots = 2 * k /\ k < 2 ^ 16) /\ u32_arg cert
  | NvmAdd l d => u16_arg l /\ u16_arg d
  | SheEcb d | SheMac d => u32_arg d
  | SheCbc iv d => u32_arg iv /\ u32_arg d
  | SheVerMac msg mac => u32_arg msg /\ u32_arg mac
  | SheUid a | ShePlain a | SheSeed a => u32_arg a
  | AesCtr d key iv tmp => u32_arg d /\ len key <= 32 /\ len iv = 16 /\ len tmp = 16
  | AesEcb d key => u32_arg d /\ len key <= 32
  | AesCbc d key iv => u32_arg d /\ len key <= 32 /\ len iv = 16
  | AesGcm _ d key iv aad tag => u32_arg d /\ len key <= 32 /\ u32_arg iv /\ u32_arg aad /\ u32_arg tag
  | AesCtrDma _ key iv tmp => len key <= 32 /\ len iv = 16 /\ len tmp = 16
  | AesEcbDma _ key => len key <= 32
  | AesCbcDma _ key iv => len key <= 32 /\ len iv = 16
  | AesGcmDma _ _ key iv tag => len key <= 32 /\ u32_arg iv /\ u32_arg tag
  | CmacGen _ cached key d _ | CmacUpd _ cached key d => len cached <= 32 /\ u32_arg key /\ u32_arg d
  | CmacFin _ cached | CmacFinDma _ cached => len cached <= 32
  | CmacGenDma _ cached key _ | CmacUpdDma _ cached key _ => len cached <= 32 /\ u32_arg key
  | Hkdf l key salt info => u32_arg l /\ u32_arg key /\ u32_arg salt /\ u32_arg info
  | CmacKdf l salt z info _ => u32_arg l /\ u32_arg salt /\ u32_arg z /\ u32_arg info
  | RsaReq _ d | RsaFun d => u16_arg d
  | EccSignReq _ hash | EccSign hash => u16_arg hash
  | EccVerifyReq _ sig hash | EccVerify sig hash => u16_arg sig /\ u16_arg hash
  | EdSign _ ty msg ctx => ty < 256 /\ u32_arg msg /\ u32_arg ctx
  | EdVerify _ ty sig msg ctx => ty < 256 /\ u32_arg sig /\ u32_arg msg /\ u32_arg ctx
  | MlSign _ msg ctx => u32_arg msg /\ size ctx < 256
  | MlVerify _ sig msg ctx => u32_arg sig /\ u32_arg msg /\ size ctx < 256
  | KemDecaps ct => u32_arg ct
  end.

(** ** The calls C67 does not hold of *)

(** The lengths the caller states, and the type their sum is computed in. *)
Definition stated (c : call) : option (N * list arg) :=
  match c with
  | EccSign hash => Some (2 ^ 16, [hash])
  | EccVerify sig hash => Some (2 ^ 16, [sig; hash])
  | AesCtr d key iv tmp => Some (2 ^ 32, [d; Buf key; Buf iv; Buf tmp])
  | AesEcb d key => Some (2 ^ 32, [d; Buf key])
  | AesCbc d key iv => Some (2 ^ 32, [d; Buf key; Buf iv])
  | AesGcm e d key iv aad tag => Some (2 ^ 32, [d; Buf key; iv; aad] ++ if e then [] else [tag])
  | AesGcmDma e named key iv tag =>
      Some (2 ^ 32, iv :: (if e then [] else [tag]) ++ if named then [] else [Buf key])
  | Hkdf _ key salt info => Some (2 ^ 32, [key; salt; info])
  | CmacKdf _ salt z info _ => Some (2 ^ 32, [salt; z; info])
  | EdSign false _ msg ctx | MlSign false msg ctx => Some (2 ^ 32, [msg; ctx])
  | EdVerify false _ sig msg ctx | MlVerify false sig msg ctx => Some (2 ^ 32, [sig; msg; ctx])
  | _ => None
  end.
Definition she_stated (c : call) : option N :=
  match c with
  | SheEcb d | SheCbc _ d | SheMac d => Some (size d)
  | SheVerMac msg _ => Some (size msg + 16)
  | _ => None
  end.
Definition total (l : list arg) : N := fold_right (fun a n => size a + n) 0 l.

(** The sum of the lengths is not cut off. *)
Definition sum_fits_its_type (cf : conf) (c : call) : Prop :=
  match stated c with Some (w, l) => fixed cf c + total l < w | None => True end /\
  match she_stated c with Some n => fixed cf c + n < c_sizet cf | None => True end.

Definition regular (cf : conf) (c : call) : Prop :=
  sum_fits_its_type cf c /\
  match c with
  | SheCbc iv _ => 8 + size iv <= c_dl cf
  | AesEcb d _ | AesCbc d _ _ => size d < 2 ^ 20
  | Hkdf _ _ salt info => supplied salt /\ supplied info
  | MlSign _ _ ctx | MlVerify _ _ _ ctx => supplied ctx
  | _ => True
  end.
