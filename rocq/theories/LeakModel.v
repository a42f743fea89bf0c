(** What the server puts into its answers: for every response structure it fills
    in on its stack, which bytes are set and which bytes are copied into the
    packet.  One row per structure in the source: whether it is cleared when it
    is declared, which fields the code assigns on every path to the translation,
    and which fields the translation copies.  The rows were collected from the
    source; offsets and sizes are those of the usual C layout.

    Left out: the data that some answers carry behind the structure, the header
    of crypto answers (C66, C91), the two structures of the comm group, and
    answers of custom callbacks.  A field that cleared structures get only on
    some paths is listed as assigned; its value is then 0. *)
From Verif Require Import Base NvmSpec KdfModel KsReq SheModel.
From Coq Require Import String.
Open Scope string_scope.
Open Scope nat_scope.
Open Scope list_scope.

(** Name, sizeof, cleared at its declaration, assigned fields, fields copied by
    the translation and whether it swaps them (WH_T16, WH_T32, WH_T64 do, memcpy
    does not: wolfhsm/wh_comm.h, wh_message_*.c). *)
Record ans := mkA { a_name : string; a_size : nat; a_clear : bool; a_set : list (nat * nat); a_tr : list ((nat * nat) * bool) }.
(** "= {0}" or memset: every copied field may get a value. *)
Definition zeroed (name : string) (size : nat) (tr : list ((nat * nat) * bool)) : ans := mkA name size true (map fst tr) tr.

(** The structure on the stack before it is translated; [stack] is what lay
    there, [vals] the values the code assigns. *)
Definition assign (l : list N) (fv : (nat * nat) * list N) : list N := wr (fst (fst fv)) (exactly (snd (fst fv)) (snd fv)) l.
Definition local_struct (a : ans) (stack : list N) (vals : list (list N)) : list N :=
  fold_left assign (combine (a_set a) vals) (if a_clear a then repeat 0%N (a_size a) else exactly (a_size a) stack).
(** The translation into the packet buffer, which held [old] (the request):
    [swap]: the client has the other byte order. *)
Definition copy (swap : bool) (loc p : list N) (t : (nat * nat) * bool) : list N :=
  let '((o, n), sw) := t in
  wr o (if sw && swap then rev (rd o n loc) else rd o n loc) p.
Definition answer (a : ans) (swap : bool) (stack : list N) (vals : list (list N)) (old : list N) : list N :=
  firstn (a_size a) (fold_left (copy swap (local_struct a stack vals)) (a_tr a) old).

(** whMessageCrypto_Sha3Response and whMessageCrypto_Sha3DmaResponse begin with
    the 25 words of the state (wolfhsm/wh_message_crypto.h 926-956, 1386-1390). *)
Definition S3 : list ((nat * nat) * bool) := map (fun k => ((8 * k, 8), true)) (seq 0 25) ++ [((200, 64), false)].
Definition S3D : list ((nat * nat) * bool) := map (fun k => ((8 * k, 8), true)) (seq 0 27) ++ [((216, 64), false)].

(** src/wh_server_crypto.c: line of the structure, its type, its translation. *)
Definition crypto_ans : list ans :=
  [ mkA "_HandleRsaKeyGen" 8 false [(0, 4); (4, 4)] [((0, 4), true); ((4, 4), true)]
    (* 365; wh_message_crypto.h 328-334; wh_message_crypto.c 213-223 *)
  ; mkA "_HandleRsaFunction" 4 false [(0, 4)] [((0, 4), true)]
    (* 582; wh_message_crypto.h 359-364; wh_message_crypto.c 242-251 *)
  ; mkA "_HandleRsaGetSize" 4 false [(0, 4)] [((0, 4), true)]
    (* 600; wh_message_crypto.h 382-384; wh_message_crypto.c 267-276 *)
  ; mkA "_HandleEccKeyGen" 8 false [(0, 4); (4, 4)] [((0, 4), true); ((4, 4), true)]
    (* 1402; wh_message_crypto.h 485-491; wh_message_crypto.c 368-378 *)
  ; mkA "_HandleEccSharedSecret" 8 false [(0, 4); (4, 4)] [((0, 4), true); ((4, 4), true)]
    (* 1614; wh_message_crypto.h 517-523; wh_message_crypto.c 400-410 *)
  ; mkA "_HandleEccSign" 4 false [(0, 4)] [((0, 4), true)]
    (* 1701; wh_message_crypto.h 545-550; wh_message_crypto.c 427-436 *)
  ; mkA "_HandleEccVerify" 8 false [(0, 4); (4, 4)] [((0, 4), true); ((4, 4), true)]
    (* 1721; wh_message_crypto.h 575-581; wh_message_crypto.c 454-464 *)
  ; mkA "_HandleEccMakePub" 4 false [(0, 4)] [((0, 4), true)]
    (* 1823; wh_message_crypto.h 599-604; wh_message_crypto.c 480-489 *)
  ; mkA "_HandleEccCheckPubKey" 4 false [(0, 4)] [((0, 4), true)]
    (* 1899; wh_message_crypto.h 629-631; wh_message_crypto.c 507-516 *)
  ; mkA "_HandleRng" 4 false [(0, 4)] [((0, 4), true)]
    (* 1998; wh_message_crypto.h 124-129; wh_message_crypto.c 71-80 *)
  ; mkA "_HandleHkdf" 8 false [(0, 4); (4, 4)] [((0, 4), true); ((4, 4), true)]
    (* 2145; wh_message_crypto.h 417-423; wh_message_crypto.c 302-312 *)
  ; zeroed "_HandleCmacKdf" 8 [((0, 4), true); ((4, 4), true)]
    (* 2290; wh_message_crypto.h 454-460; wh_message_crypto.c 335-345 *)
  ; mkA "_HandleCurve25519KeyGen" 8 false [(0, 4); (4, 4)] [((0, 4), true); ((4, 4), true)]
    (* 2454; wh_message_crypto.h 655-661; wh_message_crypto.c 537-547 *)
  ; mkA "_HandleCurve25519SharedSecret" 8 false [(0, 4); (4, 4)] [((0, 4), true); ((4, 4), true)]
    (* 2567; wh_message_crypto.h 686-692; wh_message_crypto.c 570-580 *)
  ; mkA "_HandleEd25519KeyGen" 8 false [(0, 4); (4, 4)] [((0, 4), true); ((4, 4), true)]
    (* 2705; wh_message_crypto.h 715-721; wh_message_crypto.c 600-610 *)
  ; mkA "_HandleEd25519Sign" 4 false [(0, 4)] [((0, 4), true)]
    (* 2874; wh_message_crypto.h 746-751; wh_message_crypto.c 629-638 *)
  ; mkA "_HandleEd25519Verify" 4 false [(0, 4)] [((0, 4), true)]
    (* 2893; wh_message_crypto.h 778-780; wh_message_crypto.c 658-667 *)
  ; zeroed "_HandleEd25519SignDma" 24 [((0, 8), true); ((8, 8), true); ((16, 4), true); ((20, 4), true)]
    (* 2979; wh_message_crypto.h 1912-1916; wh_message_crypto.c 1716-1735 *)
  ; zeroed "_HandleEd25519VerifyDma" 24 [((0, 8), true); ((8, 8), true); ((16, 4), true); ((20, 4), true)]
    (* 3081; wh_message_crypto.h 1933-1937; wh_message_crypto.c 1771-1790 *)
  ; mkA "_HandleAesCtr" 20 false [(0, 4); (4, 4)] [((0, 4), true); ((4, 4), true)]
    (* 3182; wh_message_crypto.h 169-180; wh_message_crypto.c 98-108 *)
  ; zeroed "_HandleAesCtrDma" 24 [((0, 8), true); ((8, 8), true); ((16, 4), true); ((20, 4), true)]
    (* 3318; wh_message_crypto.h 1552-1559; wh_message_crypto.c 1885-1900 *)
  ; mkA "_HandleAesEcb" 16 false [(0, 4)] [((0, 4), true)]
    (* 3518; wh_message_crypto.h 209-216; wh_message_crypto.c 125-134 *)
  ; zeroed "_HandleAesEcbDma" 24 [((0, 8), true); ((8, 8), true); ((16, 4), true)]
    (* 3631; wh_message_crypto.h 1489-1493; wh_message_crypto.c 1812-1826 *)
  ; mkA "_HandleAesCbc" 16 false [(0, 4)] [((0, 4), true)]
    (* 3803; wh_message_crypto.h 247-255; wh_message_crypto.c 152-161 *)
  ; zeroed "_HandleAesCbcDma" 24 [((0, 8), true); ((8, 8), true); ((16, 4), true)]
    (* 3922; wh_message_crypto.h 1520-1525; wh_message_crypto.c 1848-1861 *)
  ; mkA "_HandleAesGcm" 28 false [(0, 4); (4, 4)] [((0, 4), true); ((4, 4), true)]
    (* 4139; wh_message_crypto.h 289-300; wh_message_crypto.c 182-192 *)
  ; zeroed "_HandleAesGcmDma" 24 [((0, 8), true); ((8, 8), true); ((16, 4), true); ((20, 4), true)]
    (* 4258; wh_message_crypto.h 1589-1594; wh_message_crypto.c 1925-1940 *)
  ; zeroed "_HandleCmac" 48 [((0, 16), false); ((16, 16), false); ((32, 4), true); ((36, 4), true); ((40, 4), true); ((44, 2), true)]
    (* 4509; wh_message_crypto.h 1068-1076; wh_message_crypto.c 821-832 *)
  ; zeroed "_HandleSha256" 76 [((0, 4), true); ((4, 4), true); ((8, 64), false); ((72, 4), true)]
    (* 4630; wh_message_crypto.h 901-907; wh_message_crypto.c 717-732 *)
  ; zeroed "_HandleSha224" 76 [((0, 4), true); ((4, 4), true); ((8, 64), false); ((72, 4), true)]
    (* 4722; wh_message_crypto.h 901-907; wh_message_crypto.c 717-732 *)
  ; zeroed "_HandleSha384" 76 [((0, 4), true); ((4, 4), true); ((8, 64), false); ((72, 4), true)]
    (* 4813; wh_message_crypto.h 901-907; wh_message_crypto.c 717-732 *)
  ; zeroed "_HandleSha512" 76 [((0, 4), true); ((4, 4), true); ((8, 64), false); ((72, 4), true)]
    (* 4908; wh_message_crypto.h 901-907; wh_message_crypto.c 717-732 *)
  ; zeroed "_HandleSha3" 264 S3
    (* 5087; wh_message_crypto.h 953-956; wh_message_crypto.c 767-785 *)
  ; mkA "_HandleMlDsaKeyGen" 8 false [(0, 4); (4, 4)] [((0, 4), true); ((4, 4), true)]
    (* 5209; wh_message_crypto.h 1115-1121; wh_message_crypto.c 855-865 *)
  ; mkA "_HandleMlDsaSign" 8 false [(0, 4)] [((0, 4), true)]
    (* 5345; wh_message_crypto.h 1147-1153; wh_message_crypto.c 885-894 *)
  ; mkA "_HandleMlDsaVerify" 8 false [(0, 4)] [((0, 4), true)]
    (* 5443; wh_message_crypto.h 1183-1186; wh_message_crypto.c 915-924 *)
  ; mkA "_HandleMlKemKeyGen" 8 false [(0, 4); (4, 4)] [((0, 4), true); ((4, 4), true)]
    (* 5587; wh_message_crypto.h 1210-1216; wh_message_crypto.c 945-955 *)
  ; mkA "_HandleMlKemEncaps" 8 false [(0, 4); (4, 4)] [((0, 4), true); ((4, 4), true)]
    (* 5692; wh_message_crypto.h 1236-1243; wh_message_crypto.c 972-982 *)
  ; mkA "_HandleMlKemDecaps" 8 false [(0, 4)] [((0, 4), true)]
    (* 5795; wh_message_crypto.h 1266-1272; wh_message_crypto.c 1000-1009 *)
  ; zeroed "_HandleSha256Dma" 96 [((0, 8), true); ((8, 8), true); ((16, 64), false); ((80, 4), true); ((84, 4), true); ((88, 4), true)]
    (* 6339; wh_message_crypto.h 1341-1349; wh_message_crypto.c 1101-1118 *)
  ; zeroed "_HandleSha224Dma" 96 [((0, 8), true); ((8, 8), true); ((16, 64), false); ((80, 4), true); ((84, 4), true); ((88, 4), true)]
    (* 6446; wh_message_crypto.h 1341-1349; wh_message_crypto.c 1101-1118 *)
  ; zeroed "_HandleSha384Dma" 96 [((0, 8), true); ((8, 8), true); ((16, 64), false); ((80, 4), true); ((84, 4), true); ((88, 4), true)]
    (* 6550; wh_message_crypto.h 1341-1349; wh_message_crypto.c 1101-1118 *)
  ; zeroed "_HandleSha512Dma" 96 [((0, 8), true); ((8, 8), true); ((16, 64), false); ((80, 4), true); ((84, 4), true); ((88, 4), true)]
    (* 6654; wh_message_crypto.h 1341-1349; wh_message_crypto.c 1101-1118 *)
  ; zeroed "_HandleSha3Dma" 280 S3D
    (* 6792; wh_message_crypto.h 1386-1390; wh_message_crypto.c 1141-1160 *)
  ; zeroed "_HandleMlDsaKeyGenDma" 24 [((0, 8), true); ((8, 8), true); ((16, 4), true); ((20, 4), true)]
    (* 6903; wh_message_crypto.h 1618-1622; wh_message_crypto.c 1243-1262 *)
  ; mkA "_HandleMlDsaSignDma" 24 false [(16, 4)] [((0, 8), true); ((8, 8), true); ((16, 4), true)]
    (* 7066; wh_message_crypto.h 1640-1644; wh_message_crypto.c 1295-1313 *)
  ; mkA "_HandleMlDsaVerifyDma" 24 false [(16, 4)] [((0, 8), true); ((8, 8), true); ((16, 4), true)]
    (* 7204; wh_message_crypto.h 1662-1666; wh_message_crypto.c 1346-1364 *)
  ; zeroed "_HandleMlKemKeyGenDma" 24 [((0, 8), true); ((8, 8), true); ((16, 4), true); ((20, 4), true)]
    (* 7405; wh_message_crypto.h 1706-1710; wh_message_crypto.c 1395-1414 *)
  ; zeroed "_HandleMlKemEncapsDma" 24 [((0, 8), true); ((8, 8), true); ((16, 4), true); ((20, 4), true)]
    (* 7548; wh_message_crypto.h 1725-1732; wh_message_crypto.c 1439-1458 *)
  ; zeroed "_HandleMlKemDecapsDma" 24 [((0, 8), true); ((8, 8), true); ((16, 4), true)]
    (* 7680; wh_message_crypto.h 1746-1753; wh_message_crypto.c 1483-1501 *)
  ; zeroed "_HandleLmsKeyGenDma" 24 [((0, 8), true); ((8, 8), true); ((16, 4), true); ((20, 4), true)]
    (* 7917; wh_message_crypto.h 1806-1810; wh_message_crypto.c 1536-1556 *)
  ; zeroed "_HandleLmsSignDma" 24 [((0, 8), true); ((8, 8), true); ((16, 4), true)]
    (* 8074; wh_message_crypto.h 1822-1826; wh_message_crypto.c 1585-1604 *)
  ; zeroed "_HandleLmsVerifyDma" 24 [((0, 8), true); ((8, 8), true); ((16, 4), true)]
    (* 8201; wh_message_crypto.h 1837-1841; wh_message_crypto.c 1633-1652 *)
  ; zeroed "_HandleLmsSigsLeftDma" 4 [((0, 4), true)]
    (* 8307; wh_message_crypto.h 1852-1854; wh_message_crypto.c 1669-1680 *)
  ; zeroed "_HandleXmssKeyGenDma" 24 [((0, 8), true); ((8, 8), true); ((16, 4), true); ((20, 4), true)]
    (* 8410; wh_message_crypto.h 1806-1810; wh_message_crypto.c 1536-1556 *)
  ; zeroed "_HandleXmssSignDma" 24 [((0, 8), true); ((8, 8), true); ((16, 4), true)]
    (* 8579; wh_message_crypto.h 1822-1826; wh_message_crypto.c 1585-1604 *)
  ; zeroed "_HandleXmssVerifyDma" 24 [((0, 8), true); ((8, 8), true); ((16, 4), true)]
    (* 8693; wh_message_crypto.h 1837-1841; wh_message_crypto.c 1633-1652 *)
  ; zeroed "_HandleXmssSigsLeftDma" 4 [((0, 4), true)]
    (* 8799; wh_message_crypto.h 1852-1854; wh_message_crypto.c 1669-1680 *)
  ; zeroed "_HandleCmacDma" 64 [((0, 16), false); ((16, 16), false); ((32, 4), true); ((36, 4), true); ((40, 8), true); ((48, 8), true); ((56, 4), true); ((60, 2), true)]
    (* 8953; wh_message_crypto.h 1458-1465; wh_message_crypto.c 1189-1211 *)
  ; mkA "_HandleRngDma" 16 false [] [((0, 8), true); ((8, 8), true)]
    (* 9147; wh_message_crypto.h 1961-1963; wh_message_crypto.c 1956-1966 *) ].
(** src/wh_server_she.c, the handlers. *)
Definition she_ans : list ans :=
  [ zeroed "_SetUid She_SetUid" 8 [((0, 4), true)]
    (* 199; wh_message_she.h 45-48; wh_message_she.c 53-62 *)
  ; zeroed "_SecureBootInit She_SecureBootInit" 8 [((0, 4), true); ((4, 4), true)]
    (* 234; wh_message_she.h 66-69; wh_message_she.c 76-86 *)
  ; zeroed "_SecureBootUpdate She_SecureBootUpdate" 8 [((0, 4), true); ((4, 4), true)]
    (* 316; wh_message_she.h 90-93; wh_message_she.c 100-110 *)
  ; zeroed "_SecureBootFinish She_SecureBootFinish" 8 [((0, 4), true); ((4, 4), true)]
    (* 383; wh_message_she.h 105-108; wh_message_she.c 113-123 *)
  ; zeroed "_GetStatus She_GetStatus" 12 [((0, 4), true); ((4, 1), false)]
    (* 440; wh_message_she.h 116-120; wh_message_she.c 126-136 *)
  ; zeroed "_LoadKey She_LoadKey" 52 [((0, 4), true); ((4, 32), false); ((36, 16), false)]
    (* 493; wh_message_she.h 135-139; wh_message_she.c 156-169 *)
  ; zeroed "_LoadPlainKey She_LoadPlainKey" 4 [((0, 4), true)]
    (* 747; wh_message_she.h 156-158; wh_message_she.c 187-196 *)
  ; zeroed "_ExportRamKey She_ExportRamKey" 116 [((0, 4), true); ((4, 16), false); ((20, 32), false); ((52, 16), false); ((68, 32), false); ((100, 16), false)]
    (* 791; wh_message_she.h 170-177; wh_message_she.c 199-215 *)
  ; zeroed "_InitRnd She_InitRng" 8 [((0, 4), true); ((4, 4), true)]
    (* 954; wh_message_she.h 185-188; wh_message_she.c 218-228 *)
  ; zeroed "_Rnd She_Rnd" 20 [((0, 4), true); ((4, 16), false)]
    (* 1063; wh_message_she.h 196-199; wh_message_she.c 231-243 *)
  ; zeroed "_ExtendSeed She_ExtendSeed" 8 [((0, 4), true); ((4, 4), true)]
    (* 1115; wh_message_she.h 212-215; wh_message_she.c 261-271 *)
  ; zeroed "_EncEcb She_EncEcb" 8 [((0, 4), true); ((4, 4), true)]
    (* 1193; wh_message_she.h 237-243; wh_message_she.c 286-296 *)
  ; zeroed "_EncCbc She_EncCbc" 8 [((0, 4), true); ((4, 4), true)]
    (* 1267; wh_message_she.h 266-272; wh_message_she.c 314-324 *)
  ; zeroed "_DecEcb She_DecEcb" 8 [((0, 4), true); ((4, 4), true)]
    (* 1350; wh_message_she.h 294-300; wh_message_she.c 339-349 *)
  ; zeroed "_DecCbc She_DecCbc" 8 [((0, 4), true); ((4, 4), true)]
    (* 1431; wh_message_she.h 323-329; wh_message_she.c 367-377 *)
  ; zeroed "_GenerateMac She_GenMac" 20 [((0, 4), true); ((4, 16), false)]
    (* 1515; wh_message_she.h 350-353; wh_message_she.c 392-404 *)
  ; zeroed "_VerifyMac She_VerifyMac" 12 [((0, 4), true); ((4, 1), false)]
    (* 1576; wh_message_she.h 377-381; wh_message_she.c 420-430 *) ].
(** _ReportInvalidSheState, src/wh_server_she.c 1644-1819, in the order of the actions (wolfhsm/wh_message.h 80-98). *)
Definition refuse_ans : list ans :=
  [ mkA "refused She_SetUid" 8 false [(0, 4)] [((0, 4), true)]
    (* 1680; wh_message_she.h 45-48; wh_message_she.c 53-62 *)
  ; mkA "refused She_SecureBootInit" 8 false [(0, 4)] [((0, 4), true); ((4, 4), true)]
    (* 1688; wh_message_she.h 66-69; wh_message_she.c 76-86 *)
  ; mkA "refused She_SecureBootUpdate" 8 false [(0, 4)] [((0, 4), true); ((4, 4), true)]
    (* 1696; wh_message_she.h 90-93; wh_message_she.c 100-110 *)
  ; mkA "refused She_SecureBootFinish" 8 false [(0, 4)] [((0, 4), true); ((4, 4), true)]
    (* 1704; wh_message_she.h 105-108; wh_message_she.c 113-123 *)
  ; mkA "refused She_GetStatus" 12 false [(0, 4); (4, 1)] [((0, 4), true); ((4, 1), false)]
    (* 1712; wh_message_she.h 116-120; wh_message_she.c 126-136 *)
  ; mkA "refused She_LoadKey" 52 false [(0, 4)] [((0, 4), true); ((4, 32), false); ((36, 16), false)]
    (* 1721; wh_message_she.h 135-139; wh_message_she.c 156-169 *)
  ; mkA "refused She_LoadPlainKey" 4 false [(0, 4)] [((0, 4), true)]
    (* 1729; wh_message_she.h 156-158; wh_message_she.c 187-196 *)
  ; mkA "refused She_ExportRamKey" 116 false [(0, 4)] [((0, 4), true); ((4, 16), false); ((20, 32), false); ((52, 16), false); ((68, 32), false); ((100, 16), false)]
    (* 1737; wh_message_she.h 170-177; wh_message_she.c 199-215 *)
  ; mkA "refused She_InitRng" 8 false [(0, 4)] [((0, 4), true); ((4, 4), true)]
    (* 1745; wh_message_she.h 185-188; wh_message_she.c 218-228 *)
  ; mkA "refused She_Rnd" 20 false [(0, 4)] [((0, 4), true); ((4, 16), false)]
    (* 1753; wh_message_she.h 196-199; wh_message_she.c 231-243 *)
  ; mkA "refused She_ExtendSeed" 8 false [(0, 4)] [((0, 4), true); ((4, 4), true)]
    (* 1761; wh_message_she.h 212-215; wh_message_she.c 261-271 *)
  ; mkA "refused She_EncEcb" 8 false [(0, 4)] [((0, 4), true); ((4, 4), true)]
    (* 1769; wh_message_she.h 237-243; wh_message_she.c 286-296 *)
  ; mkA "refused She_EncCbc" 8 false [(0, 4)] [((0, 4), true); ((4, 4), true)]
    (* 1777; wh_message_she.h 266-272; wh_message_she.c 314-324 *)
  ; mkA "refused She_DecEcb" 8 false [(0, 4)] [((0, 4), true); ((4, 4), true)]
    (* 1785; wh_message_she.h 294-300; wh_message_she.c 339-349 *)
  ; mkA "refused She_DecCbc" 8 false [(0, 4)] [((0, 4), true); ((4, 4), true)]
    (* 1793; wh_message_she.h 323-329; wh_message_she.c 367-377 *)
  ; mkA "refused She_GenMac" 20 false [(0, 4)] [((0, 4), true); ((4, 16), false)]
    (* 1801; wh_message_she.h 350-353; wh_message_she.c 392-404 *)
  ; mkA "refused She_VerifyMac" 12 false [(0, 4); (4, 1)] [((0, 4), true); ((4, 1), false)]
    (* 1809; wh_message_she.h 377-381; wh_message_she.c 420-430 *) ].
(** src/wh_server_nvm.c. *)
Definition nvm_ans : list ans :=
  [ zeroed "HandleNvmRequest Nvm_Init" 12 [((0, 4), true); ((4, 4), true); ((8, 4), true)]
    (* 111; wh_message_nvm.h 80-84; wh_message_nvm.c 79-90 *)
  ; zeroed "HandleNvmRequest Nvm_Simple" 4 [((0, 4), true)]
    (* 133; wh_message_nvm.h 62-64; wh_message_nvm.c 57-66 *)
  ; zeroed "HandleNvmRequest Nvm_List" 8 [((0, 4), true); ((4, 2), true); ((6, 2), true)]
    (* 151; wh_message_nvm.h 141-145; wh_message_nvm.c 105-116 *)
  ; zeroed "HandleNvmRequest Nvm_GetAvailable" 16 [((0, 4), true); ((4, 4), true); ((8, 4), true); ((12, 2), true); ((14, 2), true)]
    (* 180; wh_message_nvm.h 100-106; wh_message_nvm.c 118-131 *)
  ; zeroed "HandleNvmRequest Nvm_GetMetadata" 36 [((0, 4), true); ((4, 2), true); ((6, 2), true); ((8, 2), true); ((10, 2), true); ((12, 24), false)]
    (* 206; wh_message_nvm.h 161-168; wh_message_nvm.c 144-160 *)
  ; zeroed "HandleNvmRequest Nvm_Simple 2" 4 [((0, 4), true)]
    (* 246; wh_message_nvm.h 62-64; wh_message_nvm.c 57-66 *)
  ; zeroed "HandleNvmRequest Nvm_Simple 3" 4 [((0, 4), true)]
    (* 293; wh_message_nvm.h 62-64; wh_message_nvm.c 57-66 *)
  ; zeroed "HandleNvmRequest Nvm_Read" 4 [((0, 4), true)]
    (* 328; wh_message_nvm.h 199-202; wh_message_nvm.c 209-218 *)
  ; zeroed "HandleNvmRequest Nvm_Simple 4" 4 [((0, 4), true)]
    (* 365; wh_message_nvm.h 62-64; wh_message_nvm.c 57-66 *)
  ; zeroed "HandleNvmRequest Nvm_Simple 5" 4 [((0, 4), true)]
    (* 448; wh_message_nvm.h 62-64; wh_message_nvm.c 57-66 *) ].
(** src/wh_server_counter.c. *)
Definition counter_ans : list ans :=
  [ zeroed "HandleCounter Counter_Init" 8 [((0, 4), true); ((4, 4), true)]
    (* 57; wh_message_counter.h 43-46; wh_message_counter.c 44-54 *)
  ; zeroed "HandleCounter Counter_Increment" 8 [((0, 4), true); ((4, 4), true)]
    (* 97; wh_message_counter.h 64-67; wh_message_counter.c 69-79 *)
  ; zeroed "HandleCounter Counter_Read" 8 [((0, 4), true); ((4, 4), true)]
    (* 153; wh_message_counter.h 85-88; wh_message_counter.c 94-104 *)
  ; zeroed "HandleCounter Counter_Destroy" 8 [((0, 4), true)]
    (* 194; wh_message_counter.h 106-109; wh_message_counter.c 119-128 *) ].
(** src/wh_server_keystore.c. *)
Definition keystore_ans : list ans :=
  [ zeroed "HandleKeyRequest Keystore_Cache" 12 [((0, 4), true); ((4, 2), true)]
    (* 2608; wh_message_keystore.h 50-54; wh_message_keystore.c 50-60 *)
  ; zeroed "HandleKeyRequest Keystore_CacheRandom" 12 [((0, 4), true); ((4, 2), true)]
    (* 2678; wh_message_keystore.h 78-82; wh_message_keystore.c 82-92 *)
  ; zeroed "HandleKeyRequest Keystore_CacheDma" 24 [((0, 8), true); ((8, 8), true); ((16, 4), true); ((20, 2), true)]
    (* 2744; wh_message_keystore.h 267-272; wh_message_keystore.c 278-290 *)
  ; zeroed "HandleKeyRequest Keystore_ExportDma" 48 [((0, 8), true); ((8, 8), true); ((16, 4), true); ((20, 4), true); ((24, 24), false)]
    (* 2810; wh_message_keystore.h 292-297; wh_message_keystore.c 307-323 *)
  ; zeroed "HandleKeyRequest Keystore_ExportPublicDma" 48 [((0, 8), true); ((8, 8), true); ((16, 4), true); ((20, 4), true); ((24, 24), false)]
    (* 2859; wh_message_keystore.h 322-327; wh_message_keystore.c 341-357 *)
  ; zeroed "HandleKeyRequest Keystore_Evict" 12 [((0, 4), true); ((4, 4), true)]
    (* 2989; wh_message_keystore.h 100-104; wh_message_keystore.c 107-117 *)
  ; zeroed "HandleKeyRequest Keystore_Export" 36 [((0, 4), true); ((4, 4), true); ((8, 24), false)]
    (* 3022; wh_message_keystore.h 144-152; wh_message_keystore.c 157-171 *)
  ; zeroed "HandleKeyRequest Keystore_ExportPublic" 36 [((0, 4), true); ((4, 4), true); ((8, 24), false)]
    (* 3071; wh_message_keystore.h 176-184; wh_message_keystore.c 187-201 *)
  ; zeroed "HandleKeyRequest Keystore_Commit" 12 [((0, 4), true); ((4, 4), true)]
    (* 3191; wh_message_keystore.h 122-126; wh_message_keystore.c 132-142 *)
  ; zeroed "HandleKeyRequest Keystore_Erase" 12 [((0, 4), true); ((4, 4), true)]
    (* 3226; wh_message_keystore.h 202-206; wh_message_keystore.c 216-226 *)
  ; zeroed "HandleKeyRequest Keystore_Revoke" 8 [((0, 4), true)]
    (* 3261; wh_message_keystore.h 224-227; wh_message_keystore.c 241-250 *)
  ; zeroed "HandleKeyRequest Keystore_KeyWrap" 8 [((0, 4), true); ((4, 2), true); ((6, 2), true)]
    (* 3294; wh_message_keystore.h 350-357; wh_message_keystore.c 376-387 *)
  ; zeroed "HandleKeyRequest Keystore_KeyWrapExport" 8 [((0, 4), true); ((4, 2), true); ((6, 2), true)]
    (* 3346; wh_message_keystore.h 378-385; wh_message_keystore.c 405-416 *)
  ; zeroed "HandleKeyRequest Keystore_KeyUnwrapAndExport" 8 [((0, 4), true); ((4, 2), true); ((6, 2), true)]
    (* 3394; wh_message_keystore.h 408-416; wh_message_keystore.c 433-444 *)
  ; zeroed "HandleKeyRequest Keystore_KeyUnwrapAndCache" 8 [((0, 4), true); ((4, 2), true); ((6, 2), true)]
    (* 3457; wh_message_keystore.h 440-444; wh_message_keystore.c 461-472 *)
  ; zeroed "HandleKeyRequest Keystore_DataWrap" 12 [((0, 4), true); ((4, 4), true); ((8, 2), true)]
    (* 3506; wh_message_keystore.h 466-474; wh_message_keystore.c 489-500 *)
  ; zeroed "HandleKeyRequest Keystore_DataUnwrap" 12 [((0, 4), true); ((4, 4), true); ((8, 2), true)]
    (* 3558; wh_message_keystore.h 496-504; wh_message_keystore.c 517-528 *) ].
(** src/wh_server_cert.c. *)
Definition cert_ans : list ans :=
  [ zeroed "HandleCertRequest Cert_Simple" 8 [((0, 4), true)]
    (* 898; wh_message_cert.h 54-57; wh_message_cert.c 37-46 *)
  ; zeroed "HandleCertRequest Cert_Simple 2" 8 [((0, 4), true)]
    (* 912; wh_message_cert.h 54-57; wh_message_cert.c 37-46 *)
  ; zeroed "HandleCertRequest Cert_Simple 3" 8 [((0, 4), true)]
    (* 959; wh_message_cert.h 54-57; wh_message_cert.c 37-46 *)
  ; zeroed "HandleCertRequest Cert_ReadTrusted" 8 [((0, 4), true); ((4, 4), true)]
    (* 985; wh_message_cert.h 122-126; wh_message_cert.c 98-108 *)
  ; zeroed "HandleCertRequest Cert_Verify" 8 [((0, 4), true); ((4, 2), true)]
    (* 1042; wh_message_cert.h 143-147; wh_message_cert.c 125-135 *)
  ; zeroed "HandleCertRequest Cert_Verify 2" 8 [((0, 4), true); ((4, 2), true)]
    (* 1095; wh_message_cert.h 143-147; wh_message_cert.c 125-135 *)
  ; zeroed "HandleCertRequest Cert_Simple 4" 8 [((0, 4), true)]
    (* 1172; wh_message_cert.h 54-57; wh_message_cert.c 37-46 *)
  ; zeroed "HandleCertRequest Cert_Simple 5" 8 [((0, 4), true)]
    (* 1197; wh_message_cert.h 54-57; wh_message_cert.c 37-46 *)
  ; zeroed "HandleCertRequest Cert_Simple 6" 8 [((0, 4), true)]
    (* 1228; wh_message_cert.h 54-57; wh_message_cert.c 37-46 *)
  ; zeroed "HandleCertRequest Cert_Simple 7" 8 [((0, 4), true)]
    (* 1277; wh_message_cert.h 54-57; wh_message_cert.c 37-46 *)
  ; zeroed "HandleCertRequest Cert_VerifyDma" 8 [((0, 4), true); ((4, 2), true)]
    (* 1341; wh_message_cert.h 221-225; wh_message_cert.c 200-210 *)
  ; zeroed "HandleCertRequest Cert_VerifyDma 2" 8 [((0, 4), true); ((4, 2), true)]
    (* 1398; wh_message_cert.h 221-225; wh_message_cert.c 200-210 *)
  ; zeroed "HandleCertRequest Cert_Simple 8" 8 [((0, 4), true)]
    (* 1454; wh_message_cert.h 54-57; wh_message_cert.c 37-46 *)
  ; zeroed "HandleCertRequest Cert_Simple 9" 8 [((0, 4), true)]
    (* 1511; wh_message_cert.h 54-57; wh_message_cert.c 37-46 *) ].
(** src/wh_server_auth.c. *)
Definition auth_ans : list ans :=
  [ zeroed "HandleAuthRequest Auth_Login" 8 [((0, 4), true); ((4, 2), true)]
    (* 70; wh_message_auth.h 83-86; wh_message_auth.c 87-99 *)
  ; zeroed "HandleAuthRequest Auth_Simple" 4 [((0, 4), true)]
    (* 108; wh_message_auth.h 42-44; wh_message_auth.c 40-49 *)
  ; zeroed "HandleAuthRequest Auth_UserAdd" 8 [((0, 4), true); ((4, 2), true)]
    (* 126; wh_message_auth.h 178-182; wh_message_auth.c 262-272 *)
  ; zeroed "HandleAuthRequest Auth_Simple 2" 4 [((0, 4), true)]
    (* 162; wh_message_auth.h 42-44; wh_message_auth.c 40-49 *)
  ; zeroed "HandleAuthRequest Auth_UserGet" 480 [((0, 4), true); ((4, 2), true); ((6, 473), false)]
    (* 180; wh_message_auth.h 237-241; wh_message_auth.c 303-316 *)
  ; zeroed "HandleAuthRequest Auth_Simple 3" 4 [((0, 4), true)]
    (* 208; wh_message_auth.h 42-44; wh_message_auth.c 40-49 *)
  ; zeroed "HandleAuthRequest Auth_Simple 4" 4 [((0, 4), true)]
    (* 237; wh_message_auth.h 42-44; wh_message_auth.c 40-49 *) ].
(** src/wh_server.c: the answers to refused requests and to the comm group. *)
Definition base_ans : list ans :=
  [ zeroed "_FormatAuthErrorResponse Auth_Login" 8 [((0, 4), true); ((4, 2), true)]
    (* 413; wh_message_auth.h 83-86; wh_message_auth.c 87-99 *)
  ; zeroed "_FormatAuthErrorResponse Auth_UserAdd" 8 [((0, 4), true); ((4, 2), true)]
    (* 423; wh_message_auth.h 178-182; wh_message_auth.c 262-272 *)
  ; zeroed "_FormatAuthErrorResponse Auth_UserGet" 480 [((0, 4), true); ((4, 2), true); ((6, 473), false)]
    (* 433; wh_message_auth.h 237-241; wh_message_auth.c 303-316 *)
  ; zeroed "_FormatAuthErrorResponse Auth_Simple" 4 [((0, 4), true)]
    (* 445; wh_message_auth.h 42-44; wh_message_auth.c 40-49 *)
  ; zeroed "_FormatAuthErrorResponse Nvm_Init" 12 [((0, 4), true); ((4, 4), true); ((8, 4), true)]
    (* 462; wh_message_nvm.h 80-84; wh_message_nvm.c 79-90 *)
  ; zeroed "_FormatAuthErrorResponse Nvm_GetAvailable" 16 [((0, 4), true); ((4, 4), true); ((8, 4), true); ((12, 2), true); ((14, 2), true)]
    (* 472; wh_message_nvm.h 100-106; wh_message_nvm.c 118-131 *)
  ; zeroed "_FormatAuthErrorResponse Nvm_List" 8 [((0, 4), true); ((4, 2), true); ((6, 2), true)]
    (* 485; wh_message_nvm.h 141-145; wh_message_nvm.c 105-116 *)
  ; zeroed "_FormatAuthErrorResponse Nvm_GetMetadata" 36 [((0, 4), true); ((4, 2), true); ((6, 2), true); ((8, 2), true); ((10, 2), true); ((12, 24), false)]
    (* 495; wh_message_nvm.h 161-168; wh_message_nvm.c 144-160 *)
  ; zeroed "_FormatAuthErrorResponse Nvm_Read" 4 [((0, 4), true)]
    (* 509; wh_message_nvm.h 199-202; wh_message_nvm.c 209-218 *)
  ; zeroed "_FormatAuthErrorResponse Nvm_Simple" 4 [((0, 4), true)]
    (* 518; wh_message_nvm.h 62-64; wh_message_nvm.c 57-66 *)
  ; zeroed "_FormatAuthErrorResponse Cert_Simple" 8 [((0, 4), true)]
    (* 533; wh_message_cert.h 54-57; wh_message_cert.c 37-46 *) ].

Definition answers : list ans :=
  crypto_ans ++ she_ans ++ refuse_ans ++ nvm_ans ++ counter_ans ++ keystore_ans ++ cert_ans ++ auth_ans ++ base_ans.

(** ** Requests a SHE server refuses *)
(** The actions by number: wolfhsm/wh_message.h 80-98. *)
Definition act_no (q : sreq) : option nat :=
  match q with
  | SSetUid _ => Some 0 | SBootInit _ => Some 1 | SBootUpdate _ => Some 2 | SBootFinish => Some 3 | SStatus => Some 4
  | SLoadKey _ _ _ => Some 5 | SLoadPlain _ => Some 6 | SExportRam => Some 7 | SInitRnd => Some 8 | SRnd => Some 9
  | SExtendSeed _ => Some 10
  | SUse OEncEcb _ _ => Some 11 | SUse (OEncCbc _) _ _ => Some 12 | SUse ODecEcb _ _ => Some 13 | SUse (ODecCbc _) _ _ => Some 14
  | SUse OGenMac _ _ => Some 15 | SUse (OVerifyMac _) _ _ => Some 16
  | _ => None
  end.
(** _ReportInvalidSheState and its caller (src/wh_server_she.c 1644-1819,
    1843-1847): the answer of a server whose state does not allow the request;
    None if it goes on to the handler or sends no answer.  [refused] is the test
    of C37's model (SheModel.v). *)
Definition refusal (h : she) (q : sreq) (swap : bool) (stack : list N) (old : list N) : option (list N) :=
  if negb (refused q h) then None else
  match act_no q with
  | None => None
  | Some n => option_map (fun a => answer a swap stack [le_enc 4 (Z.to_N (SEQUENCE_ERROR mod 4294967296)); [(if Nat.eqb n 16 then 1 else 0)%N]] old)
                (nth_error refuse_ans n)
  end.
