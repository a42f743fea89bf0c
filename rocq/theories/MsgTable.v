(** Generated by tools/genmsgs.py from wolfhsm/wh_message_*.h, wolfhsm/wh_common.h and
    src/wh_message_*.c: every message structure with what its translation function
    does with each field.  Custom-callback messages are in EndianModel.v, flattened
    permissions in AuthModel.v. *)
From Coq Require Import String.
From Verif Require Import Base EndianModel.
Local Open Scope string_scope.

(** src/wh_message_auth.c 40-49; wolfhsm/wh_message_auth.h 42. *)
Definition m_Auth_SimpleResponse : mdef := mkMsg "whMessageAuth_SimpleResponse" [
  mkF "rc" 4 false (FT 4)].
(** src/wh_message_auth.c 51-85; wolfhsm/wh_message_auth.h 59. *)
Definition m_Auth_LoginRequest : mdef := mkMsg "whMessageAuth_LoginRequest" [
  mkF "method" 2 false (FT 2);
  mkF "username" 1 false FStr;
  mkF "auth_data_len" 2 false (FT 2)].
(** src/wh_message_auth.c 87-99; wolfhsm/wh_message_auth.h 83. *)
Definition m_Auth_LoginResponse : mdef := mkMsg "whMessageAuth_LoginResponse" [
  mkF "rc" 4 false (FT 4);
  mkF "user_id" 2 false (FT 2)].
(** src/wh_message_auth.c 101-111; wolfhsm/wh_message_auth.h 101. *)
Definition m_Auth_LogoutRequest : mdef := mkMsg "whMessageAuth_LogoutRequest" [
  mkF "user_id" 2 false (FT 2);
  mkF "WH_PAD" 1 true FNone].
(** src/wh_message_auth.c 222-260; wolfhsm/wh_message_auth.h 153. *)
Definition m_Auth_UserAddRequest : mdef := mkMsg "whMessageAuth_UserAddRequest" [
  mkF "username" 1 false FStr;
  mkF "permissions" 1 false FCopy;
  mkF "method" 2 false (FT 2);
  mkF "credentials_len" 2 false (FT 2)].
(** src/wh_message_auth.c 262-272; wolfhsm/wh_message_auth.h 178. *)
Definition m_Auth_UserAddResponse : mdef := mkMsg "whMessageAuth_UserAddResponse" [
  mkF "rc" 4 false (FT 4);
  mkF "user_id" 2 false (FT 2);
  mkF "WH_PAD" 1 true FNone].
(** src/wh_message_auth.c 274-284; wolfhsm/wh_message_auth.h 197. *)
Definition m_Auth_UserDeleteRequest : mdef := mkMsg "whMessageAuth_UserDeleteRequest" [
  mkF "user_id" 2 false (FT 2);
  mkF "WH_PAD" 1 true FNone].
(** src/wh_message_auth.c 286-301; wolfhsm/wh_message_auth.h 219. *)
Definition m_Auth_UserGetRequest : mdef := mkMsg "whMessageAuth_UserGetRequest" [
  mkF "username" 1 false FStr;
  mkF "WH_PAD" 1 true FNone].
(** src/wh_message_auth.c 303-316; wolfhsm/wh_message_auth.h 237. *)
Definition m_Auth_UserGetResponse : mdef := mkMsg "whMessageAuth_UserGetResponse" [
  mkF "rc" 4 false (FT 4);
  mkF "user_id" 2 false (FT 2);
  mkF "permissions" 1 false FCopy].
(** src/wh_message_auth.c 318-330; wolfhsm/wh_message_auth.h 256. *)
Definition m_Auth_UserSetPermissionsRequest : mdef := mkMsg "whMessageAuth_UserSetPermissionsRequest" [
  mkF "user_id" 2 false (FT 2);
  mkF "permissions" 1 false FCopy].
(** src/wh_message_auth.c 332-373; wolfhsm/wh_message_auth.h 280. *)
Definition m_Auth_UserSetCredentialsRequest : mdef := mkMsg "whMessageAuth_UserSetCredentialsRequest" [
  mkF "user_id" 2 false (FT 2);
  mkF "method" 2 false (FT 2);
  mkF "current_credentials_len" 2 false (FT 2);
  mkF "new_credentials_len" 2 false (FT 2)].
(** src/wh_message_cert.c 37-46; wolfhsm/wh_message_cert.h 54. *)
Definition m_Cert_SimpleResponse : mdef := mkMsg "whMessageCert_SimpleResponse" [
  mkF "rc" 4 false (FT 4);
  mkF "WH_PAD" 1 true FNone].
(** src/wh_message_cert.c 48-58; wolfhsm/wh_message_cert.h 64. *)
Definition m_Cert_SetEnabledRequest : mdef := mkMsg "whMessageCert_SetEnabledRequest" [
  mkF "enable" 1 false FCopy;
  mkF "WH_PAD" 1 true FNone].
(** src/wh_message_cert.c 60-74; wolfhsm/wh_message_cert.h 81. *)
Definition m_Cert_AddTrustedRequest : mdef := mkMsg "whMessageCert_AddTrustedRequest" [
  mkF "cert_len" 4 false (FT 4);
  mkF "id" 2 false (FT 2);
  mkF "access" 2 false (FT 2);
  mkF "flags" 2 false (FT 2);
  mkF "label" 1 false FCopy;
  mkF "WH_PAD" 1 true FNone].
(** src/wh_message_cert.c 76-85; wolfhsm/wh_message_cert.h 99. *)
Definition m_Cert_EraseTrustedRequest : mdef := mkMsg "whMessageCert_EraseTrustedRequest" [
  mkF "id" 2 false (FT 2);
  mkF "WH_PAD" 1 true FNone].
(** src/wh_message_cert.c 87-96; wolfhsm/wh_message_cert.h 112. *)
Definition m_Cert_ReadTrustedRequest : mdef := mkMsg "whMessageCert_ReadTrustedRequest" [
  mkF "id" 2 false (FT 2);
  mkF "WH_PAD" 1 true FNone].
(** src/wh_message_cert.c 98-108; wolfhsm/wh_message_cert.h 122. *)
Definition m_Cert_ReadTrustedResponse : mdef := mkMsg "whMessageCert_ReadTrustedResponse" [
  mkF "rc" 4 false (FT 4);
  mkF "cert_len" 4 false (FT 4)].
(** src/wh_message_cert.c 110-123; wolfhsm/wh_message_cert.h 133. *)
Definition m_Cert_VerifyRequest : mdef := mkMsg "whMessageCert_VerifyRequest" [
  mkF "cert_len" 4 false (FT 4);
  mkF "trustedRootNvmId" 2 false (FT 2);
  mkF "flags" 2 false (FT 2);
  mkF "cachedKeyFlags" 2 false (FT 2);
  mkF "keyId" 2 false (FT 2)].
(** src/wh_message_cert.c 125-135; wolfhsm/wh_message_cert.h 143. *)
Definition m_Cert_VerifyResponse : mdef := mkMsg "whMessageCert_VerifyResponse" [
  mkF "rc" 4 false (FT 4);
  mkF "keyId" 2 false (FT 2);
  mkF "WH_PAD" 1 true FNone].
(** src/wh_message_cert.c 137-150; wolfhsm/wh_message_cert.h 165. *)
Definition m_Cert_VerifyMultiRootRequest : mdef := mkMsg "whMessageCert_VerifyMultiRootRequest" [
  mkF "cert_len" 4 false (FT 4);
  mkF "numRoots" 2 false (FT 2);
  mkF "flags" 2 false (FT 2);
  mkF "cachedKeyFlags" 2 false (FT 2);
  mkF "keyId" 2 false (FT 2);
  mkF "WH_PAD" 1 true FNone].
(** src/wh_message_cert.c 154-169; wolfhsm/wh_message_cert.h 183. *)
Definition m_Cert_AddTrustedDmaRequest : mdef := mkMsg "whMessageCert_AddTrustedDmaRequest" [
  mkF "cert_addr" 8 false (FT 8);
  mkF "cert_len" 4 false (FT 4);
  mkF "id" 2 false (FT 2);
  mkF "access" 2 false (FT 2);
  mkF "flags" 2 false (FT 2);
  mkF "label" 1 false FCopy;
  mkF "WH_PAD" 1 true FNone].
(** src/wh_message_cert.c 171-182; wolfhsm/wh_message_cert.h 198. *)
Definition m_Cert_ReadTrustedDmaRequest : mdef := mkMsg "whMessageCert_ReadTrustedDmaRequest" [
  mkF "cert_addr" 8 false (FT 8);
  mkF "cert_len" 4 false (FT 4);
  mkF "id" 2 false (FT 2);
  mkF "WH_PAD" 1 true FNone].
(** src/wh_message_cert.c 184-198; wolfhsm/wh_message_cert.h 210. *)
Definition m_Cert_VerifyDmaRequest : mdef := mkMsg "whMessageCert_VerifyDmaRequest" [
  mkF "cert_addr" 8 false (FT 8);
  mkF "cert_len" 4 false (FT 4);
  mkF "trustedRootNvmId" 2 false (FT 2);
  mkF "flags" 2 false (FT 2);
  mkF "cachedKeyFlags" 2 false (FT 2);
  mkF "keyId" 2 false (FT 2);
  mkF "WH_PAD" 1 true FNone].
(** src/wh_message_cert.c 200-210; wolfhsm/wh_message_cert.h 221. *)
Definition m_Cert_VerifyDmaResponse : mdef := mkMsg "whMessageCert_VerifyDmaResponse" [
  mkF "rc" 4 false (FT 4);
  mkF "keyId" 2 false (FT 2);
  mkF "WH_PAD" 1 true FNone].
(** src/wh_message_cert.c 212-230; wolfhsm/wh_message_cert.h 246. *)
Definition m_Cert_VerifyMultiRootDmaRequest : mdef := mkMsg "whMessageCert_VerifyMultiRootDmaRequest" [
  mkF "cert_addr" 8 false (FT 8);
  mkF "cert_len" 4 false (FT 4);
  mkF "numRoots" 2 false (FT 2);
  mkF "flags" 2 false (FT 2);
  mkF "cachedKeyFlags" 2 false (FT 2);
  mkF "keyId" 2 false (FT 2);
  mkF "WH_PAD" 1 true FNone;
  mkF "trustedRootNvmIds" 2 false (FT 2);
  mkF "WH_PAD2" 1 true FNone].
(** src/wh_message_cert.c 234-244; wolfhsm/wh_message_cert.h 288. *)
Definition m_Cert_VerifyAcertRequest : mdef := mkMsg "whMessageCert_VerifyAcertRequest" [
  mkF "cert_len" 4 false (FT 4);
  mkF "trustedRootNvmId" 2 false (FT 2);
  mkF "WH_PAD" 1 true FNone].
(** src/wh_message_comm.c 36-46; wolfhsm/wh_message_comm.h 62. *)
Definition m_Comm_InitRequest : mdef := mkMsg "whMessageCommInitRequest" [
  mkF "client_id" 4 false (FT 4)].
(** src/wh_message_comm.c 48-59; wolfhsm/wh_message_comm.h 71. *)
Definition m_Comm_InitResponse : mdef := mkMsg "whMessageCommInitResponse" [
  mkF "client_id" 4 false (FT 4);
  mkF "server_id" 4 false (FT 4)].
(** src/wh_message_comm.c 61-84; wolfhsm/wh_message_comm.h 81. *)
Definition m_Comm_InfoResponse : mdef := mkMsg "whMessageCommInfoResponse" [
  mkF "cfg_comm_data_len" 4 false (FT 4);
  mkF "cfg_nvm_object_count" 4 false (FT 4);
  mkF "cfg_server_keycache_count" 4 false (FT 4);
  mkF "cfg_server_keycache_bufsize" 4 false (FT 4);
  mkF "cfg_server_keycache_bigcount" 4 false (FT 4);
  mkF "cfg_server_keycache_bigbufsize" 4 false (FT 4);
  mkF "cfg_server_customcb_count" 4 false (FT 4);
  mkF "cfg_server_dmaaddr_count" 4 false (FT 4);
  mkF "debug_state" 4 false (FT 4);
  mkF "boot_state" 4 false (FT 4);
  mkF "lifecycle_state" 4 false (FT 4);
  mkF "nvm_state" 4 false (FT 4);
  mkF "version" 1 false FCopy;
  mkF "build" 1 false FCopy;
  mkF "WH_PAD" 1 true FNone].
(** src/wh_message_counter.c 31-41; wolfhsm/wh_message_counter.h 36. *)
Definition m_Counter_InitRequest : mdef := mkMsg "whMessageCounter_InitRequest" [
  mkF "counter" 4 false (FT 4);
  mkF "counterId" 2 false (FT 2);
  mkF "WH_PAD" 1 true FNone].
(** src/wh_message_counter.c 44-54; wolfhsm/wh_message_counter.h 43. *)
Definition m_Counter_InitResponse : mdef := mkMsg "whMessageCounter_InitResponse" [
  mkF "rc" 4 false (FT 4);
  mkF "counter" 4 false (FT 4)].
(** src/wh_message_counter.c 57-66; wolfhsm/wh_message_counter.h 58. *)
Definition m_Counter_IncrementRequest : mdef := mkMsg "whMessageCounter_IncrementRequest" [
  mkF "counterId" 2 false (FT 2);
  mkF "WH_PAD" 1 true FNone].
(** src/wh_message_counter.c 69-79; wolfhsm/wh_message_counter.h 64. *)
Definition m_Counter_IncrementResponse : mdef := mkMsg "whMessageCounter_IncrementResponse" [
  mkF "rc" 4 false (FT 4);
  mkF "counter" 4 false (FT 4)].
(** src/wh_message_counter.c 82-91; wolfhsm/wh_message_counter.h 79. *)
Definition m_Counter_ReadRequest : mdef := mkMsg "whMessageCounter_ReadRequest" [
  mkF "counterId" 2 false (FT 2);
  mkF "WH_PAD" 1 true FNone].
(** src/wh_message_counter.c 94-104; wolfhsm/wh_message_counter.h 85. *)
Definition m_Counter_ReadResponse : mdef := mkMsg "whMessageCounter_ReadResponse" [
  mkF "rc" 4 false (FT 4);
  mkF "counter" 4 false (FT 4)].
(** src/wh_message_counter.c 107-116; wolfhsm/wh_message_counter.h 100. *)
Definition m_Counter_DestroyRequest : mdef := mkMsg "whMessageCounter_DestroyRequest" [
  mkF "counterId" 2 false (FT 2);
  mkF "WH_PAD" 1 true FNone].
(** src/wh_message_counter.c 119-128; wolfhsm/wh_message_counter.h 106. *)
Definition m_Counter_DestroyResponse : mdef := mkMsg "whMessageCounter_DestroyResponse" [
  mkF "rc" 4 false (FT 4);
  mkF "WH_PAD" 1 true FNone].
(** src/wh_message_crypto.c 31-42; wolfhsm/wh_message_crypto.h 74. *)
Definition m_Crypto_GenericRequestHeader : mdef := mkMsg "whMessageCrypto_GenericRequestHeader" [
  mkF "algoType" 4 false (FT 4);
  mkF "algoSubType" 4 false (FT 4);
  mkF "affinity" 4 false (FT 4)].
(** src/wh_message_crypto.c 45-56; wolfhsm/wh_message_crypto.h 84. *)
Definition m_Crypto_GenericResponseHeader : mdef := mkMsg "whMessageCrypto_GenericResponseHeader" [
  mkF "algoType" 4 false (FT 4);
  mkF "rc" 4 false (FT 4);
  mkF "reserved" 4 false (FT 4)].
(** src/wh_message_crypto.c 59-68; wolfhsm/wh_message_crypto.h 119. *)
Definition m_Crypto_RngRequest : mdef := mkMsg "whMessageCrypto_RngRequest" [
  mkF "sz" 4 false (FT 4)].
(** src/wh_message_crypto.c 71-80; wolfhsm/wh_message_crypto.h 124. *)
Definition m_Crypto_RngResponse : mdef := mkMsg "whMessageCrypto_RngResponse" [
  mkF "sz" 4 false (FT 4)].
(** src/wh_message_crypto.c 83-96; wolfhsm/wh_message_crypto.h 153. *)
Definition m_Crypto_AesCtrRequest : mdef := mkMsg "whMessageCrypto_AesCtrRequest" [
  mkF "enc" 4 false (FT 4);
  mkF "keyLen" 4 false (FT 4);
  mkF "sz" 4 false (FT 4);
  mkF "left" 4 false (FT 4);
  mkF "keyId" 2 false (FT 2);
  mkF "WH_PAD" 1 true FNone].
(** src/wh_message_crypto.c 98-108; wolfhsm/wh_message_crypto.h 169. *)
Definition m_Crypto_AesCtrResponse : mdef := mkMsg "whMessageCrypto_AesCtrResponse" [
  mkF "sz" 4 false (FT 4);
  mkF "left" 4 false (FT 4);
  mkF "WH_PAD" 1 true FNone].
(** src/wh_message_crypto.c 110-122; wolfhsm/wh_message_crypto.h 196. *)
Definition m_Crypto_AesEcbRequest : mdef := mkMsg "whMessageCrypto_AesEcbRequest" [
  mkF "enc" 4 false (FT 4);
  mkF "keyLen" 4 false (FT 4);
  mkF "sz" 4 false (FT 4);
  mkF "keyId" 2 false (FT 2);
  mkF "WH_PAD" 1 true FNone].
(** src/wh_message_crypto.c 125-134; wolfhsm/wh_message_crypto.h 209. *)
Definition m_Crypto_AesEcbResponse : mdef := mkMsg "whMessageCrypto_AesEcbResponse" [
  mkF "sz" 4 false (FT 4);
  mkF "WH_PAD" 1 true FNone].
(** src/wh_message_crypto.c 137-149; wolfhsm/wh_message_crypto.h 233. *)
Definition m_Crypto_AesCbcRequest : mdef := mkMsg "whMessageCrypto_AesCbcRequest" [
  mkF "enc" 4 false (FT 4);
  mkF "keyLen" 4 false (FT 4);
  mkF "sz" 4 false (FT 4);
  mkF "keyId" 2 false (FT 2);
  mkF "WH_PAD" 1 true FNone].
(** src/wh_message_crypto.c 152-161; wolfhsm/wh_message_crypto.h 247. *)
Definition m_Crypto_AesCbcResponse : mdef := mkMsg "whMessageCrypto_AesCbcResponse" [
  mkF "sz" 4 false (FT 4);
  mkF "WH_PAD" 1 true FNone].
(** src/wh_message_crypto.c 164-179; wolfhsm/wh_message_crypto.h 271. *)
Definition m_Crypto_AesGcmRequest : mdef := mkMsg "whMessageCrypto_AesGcmRequest" [
  mkF "enc" 4 false (FT 4);
  mkF "keyLen" 4 false (FT 4);
  mkF "sz" 4 false (FT 4);
  mkF "ivSz" 4 false (FT 4);
  mkF "authInSz" 4 false (FT 4);
  mkF "authTagSz" 4 false (FT 4);
  mkF "keyId" 2 false (FT 2);
  mkF "WH_PAD" 1 true FNone].
(** src/wh_message_crypto.c 182-192; wolfhsm/wh_message_crypto.h 290. *)
Definition m_Crypto_AesGcmResponse : mdef := mkMsg "whMessageCrypto_AesGcmResponse" [
  mkF "sz" 4 false (FT 4);
  mkF "authTagSz" 4 false (FT 4);
  mkF "WH_PAD" 1 true FNone].
(** src/wh_message_crypto.c 194-210; wolfhsm/wh_message_crypto.h 319. *)
Definition m_Crypto_RsaKeyGenRequest : mdef := mkMsg "whMessageCrypto_RsaKeyGenRequest" [
  mkF "flags" 4 false (FT 4);
  mkF "keyId" 4 false (FT 4);
  mkF "size" 4 false (FT 4);
  mkF "e" 4 false (FT 4);
  mkF "label" 1 false FCopy].
(** src/wh_message_crypto.c 213-223; wolfhsm/wh_message_crypto.h 328. *)
Definition m_Crypto_RsaKeyGenResponse : mdef := mkMsg "whMessageCrypto_RsaKeyGenResponse" [
  mkF "keyId" 4 false (FT 4);
  mkF "len" 4 false (FT 4)].
(** src/wh_message_crypto.c 226-239; wolfhsm/wh_message_crypto.h 346. *)
Definition m_Crypto_RsaRequest : mdef := mkMsg "whMessageCrypto_RsaRequest" [
  mkF "opType" 4 false (FT 4);
  mkF "options" 4 false (FT 4);
  mkF "keyId" 4 false (FT 4);
  mkF "inLen" 4 false (FT 4);
  mkF "outLen" 4 false (FT 4)].
(** src/wh_message_crypto.c 242-251; wolfhsm/wh_message_crypto.h 359. *)
Definition m_Crypto_RsaResponse : mdef := mkMsg "whMessageCrypto_RsaResponse" [
  mkF "outLen" 4 false (FT 4)].
(** src/wh_message_crypto.c 254-264; wolfhsm/wh_message_crypto.h 375. *)
Definition m_Crypto_RsaGetSizeRequest : mdef := mkMsg "whMessageCrypto_RsaGetSizeRequest" [
  mkF "options" 4 false (FT 4);
  mkF "keyId" 4 false (FT 4)].
(** src/wh_message_crypto.c 267-276; wolfhsm/wh_message_crypto.h 382. *)
Definition m_Crypto_RsaGetSizeResponse : mdef := mkMsg "whMessageCrypto_RsaGetSizeResponse" [
  mkF "keySize" 4 false (FT 4)].
(** src/wh_message_crypto.c 279-299; wolfhsm/wh_message_crypto.h 399. *)
Definition m_Crypto_HkdfRequest : mdef := mkMsg "whMessageCrypto_HkdfRequest" [
  mkF "flags" 4 false (FT 4);
  mkF "keyIdIn" 4 false (FT 4);
  mkF "keyIdOut" 4 false (FT 4);
  mkF "hashType" 4 false (FT 4);
  mkF "inKeySz" 4 false (FT 4);
  mkF "saltSz" 4 false (FT 4);
  mkF "infoSz" 4 false (FT 4);
  mkF "outSz" 4 false (FT 4);
  mkF "label" 1 false FCopy].
(** src/wh_message_crypto.c 302-312; wolfhsm/wh_message_crypto.h 417. *)
Definition m_Crypto_HkdfResponse : mdef := mkMsg "whMessageCrypto_HkdfResponse" [
  mkF "keyIdOut" 4 false (FT 4);
  mkF "outSz" 4 false (FT 4)].
(** src/wh_message_crypto.c 314-333; wolfhsm/wh_message_crypto.h 437. *)
Definition m_Crypto_CmacKdfRequest : mdef := mkMsg "whMessageCrypto_CmacKdfRequest" [
  mkF "flags" 4 false (FT 4);
  mkF "keyIdSalt" 4 false (FT 4);
  mkF "keyIdZ" 4 false (FT 4);
  mkF "keyIdOut" 4 false (FT 4);
  mkF "saltSz" 4 false (FT 4);
  mkF "zSz" 4 false (FT 4);
  mkF "fixedInfoSz" 4 false (FT 4);
  mkF "outSz" 4 false (FT 4);
  mkF "label" 1 false FCopy].
(** src/wh_message_crypto.c 335-345; wolfhsm/wh_message_crypto.h 454. *)
Definition m_Crypto_CmacKdfResponse : mdef := mkMsg "whMessageCrypto_CmacKdfResponse" [
  mkF "keyIdOut" 4 false (FT 4);
  mkF "outSz" 4 false (FT 4)].
(** src/wh_message_crypto.c 348-365; wolfhsm/wh_message_crypto.h 475. *)
Definition m_Crypto_EccKeyGenRequest : mdef := mkMsg "whMessageCrypto_EccKeyGenRequest" [
  mkF "sz" 4 false (FT 4);
  mkF "curveId" 4 false (FT 4);
  mkF "keyId" 4 false (FT 4);
  mkF "flags" 4 false (FT 4);
  mkF "access" 4 false (FT 4);
  mkF "label" 1 false FCopy].
(** src/wh_message_crypto.c 368-378; wolfhsm/wh_message_crypto.h 485. *)
Definition m_Crypto_EccKeyGenResponse : mdef := mkMsg "whMessageCrypto_EccKeyGenResponse" [
  mkF "keyId" 4 false (FT 4);
  mkF "len" 4 false (FT 4)].
(** src/wh_message_crypto.c 381-397; wolfhsm/wh_message_crypto.h 502. *)
Definition m_Crypto_EcdhRequest : mdef := mkMsg "whMessageCrypto_EcdhRequest" [
  mkF "options" 4 false (FT 4);
  mkF "privateKeyId" 4 false (FT 4);
  mkF "publicKeyId" 4 false (FT 4);
  mkF "flags" 4 false (FT 4);
  mkF "keyId" 4 false (FT 4);
  mkF "label" 1 false FCopy].
(** src/wh_message_crypto.c 400-410; wolfhsm/wh_message_crypto.h 517. *)
Definition m_Crypto_EcdhResponse : mdef := mkMsg "whMessageCrypto_EcdhResponse" [
  mkF "sz" 4 false (FT 4);
  mkF "keyId" 4 false (FT 4)].
(** src/wh_message_crypto.c 413-424; wolfhsm/wh_message_crypto.h 534. *)
Definition m_Crypto_EccSignRequest : mdef := mkMsg "whMessageCrypto_EccSignRequest" [
  mkF "options" 4 false (FT 4);
  mkF "keyId" 4 false (FT 4);
  mkF "sz" 4 false (FT 4)].
(** src/wh_message_crypto.c 427-436; wolfhsm/wh_message_crypto.h 545. *)
Definition m_Crypto_EccSignResponse : mdef := mkMsg "whMessageCrypto_EccSignResponse" [
  mkF "sz" 4 false (FT 4)].
(** src/wh_message_crypto.c 439-451; wolfhsm/wh_message_crypto.h 561. *)
Definition m_Crypto_EccVerifyRequest : mdef := mkMsg "whMessageCrypto_EccVerifyRequest" [
  mkF "options" 4 false (FT 4);
  mkF "keyId" 4 false (FT 4);
  mkF "sigSz" 4 false (FT 4);
  mkF "hashSz" 4 false (FT 4)].
(** src/wh_message_crypto.c 454-464; wolfhsm/wh_message_crypto.h 575. *)
Definition m_Crypto_EccVerifyResponse : mdef := mkMsg "whMessageCrypto_EccVerifyResponse" [
  mkF "res" 4 false (FT 4);
  mkF "pubSz" 4 false (FT 4)].
(** src/wh_message_crypto.c 467-477; wolfhsm/wh_message_crypto.h 592. *)
Definition m_Crypto_EccMakePubRequest : mdef := mkMsg "whMessageCrypto_EccMakePubRequest" [
  mkF "options" 4 false (FT 4);
  mkF "keyId" 4 false (FT 4)].
(** src/wh_message_crypto.c 480-489; wolfhsm/wh_message_crypto.h 599. *)
Definition m_Crypto_EccMakePubResponse : mdef := mkMsg "whMessageCrypto_EccMakePubResponse" [
  mkF "pubSz" 4 false (FT 4)].
(** src/wh_message_crypto.c 492-504; wolfhsm/wh_message_crypto.h 615. *)
Definition m_Crypto_EccCheckRequest : mdef := mkMsg "whMessageCrypto_EccCheckRequest" [
  mkF "options" 4 false (FT 4);
  mkF "keyId" 4 false (FT 4);
  mkF "curveId" 4 false (FT 4);
  mkF "pubSz" 4 false (FT 4)].
(** src/wh_message_crypto.c 507-516; wolfhsm/wh_message_crypto.h 629. *)
Definition m_Crypto_EccCheckResponse : mdef := mkMsg "whMessageCrypto_EccCheckResponse" [
  mkF "ok" 4 false (FT 4)].
(** src/wh_message_crypto.c 519-534; wolfhsm/wh_message_crypto.h 647. *)
Definition m_Crypto_Curve25519KeyGenRequest : mdef := mkMsg "whMessageCrypto_Curve25519KeyGenRequest" [
  mkF "sz" 4 false (FT 4);
  mkF "flags" 4 false (FT 4);
  mkF "keyId" 4 false (FT 4);
  mkF "label" 1 false FCopy].
(** src/wh_message_crypto.c 537-547; wolfhsm/wh_message_crypto.h 655. *)
Definition m_Crypto_Curve25519KeyGenResponse : mdef := mkMsg "whMessageCrypto_Curve25519KeyGenResponse" [
  mkF "keyId" 4 false (FT 4);
  mkF "len" 4 false (FT 4)].
(** src/wh_message_crypto.c 550-567; wolfhsm/wh_message_crypto.h 672. *)
Definition m_Crypto_Curve25519Request : mdef := mkMsg "whMessageCrypto_Curve25519Request" [
  mkF "options" 4 false (FT 4);
  mkF "privateKeyId" 4 false (FT 4);
  mkF "publicKeyId" 4 false (FT 4);
  mkF "endian" 4 false (FT 4);
  mkF "flags" 4 false (FT 4);
  mkF "keyId" 4 false (FT 4);
  mkF "label" 1 false FCopy].
(** src/wh_message_crypto.c 570-580; wolfhsm/wh_message_crypto.h 686. *)
Definition m_Crypto_Curve25519Response : mdef := mkMsg "whMessageCrypto_Curve25519Response" [
  mkF "sz" 4 false (FT 4);
  mkF "keyId" 4 false (FT 4)].
(** src/wh_message_crypto.c 583-597; wolfhsm/wh_message_crypto.h 707. *)
Definition m_Crypto_Ed25519KeyGenRequest : mdef := mkMsg "whMessageCrypto_Ed25519KeyGenRequest" [
  mkF "flags" 4 false (FT 4);
  mkF "keyId" 4 false (FT 4);
  mkF "access" 4 false (FT 4);
  mkF "label" 1 false FCopy].
(** src/wh_message_crypto.c 600-610; wolfhsm/wh_message_crypto.h 715. *)
Definition m_Crypto_Ed25519KeyGenResponse : mdef := mkMsg "whMessageCrypto_Ed25519KeyGenResponse" [
  mkF "keyId" 4 false (FT 4);
  mkF "outSz" 4 false (FT 4)].
(** src/wh_message_crypto.c 613-626; wolfhsm/wh_message_crypto.h 732. *)
Definition m_Crypto_Ed25519SignRequest : mdef := mkMsg "whMessageCrypto_Ed25519SignRequest" [
  mkF "options" 4 false (FT 4);
  mkF "keyId" 4 false (FT 4);
  mkF "msgSz" 4 false (FT 4);
  mkF "type" 4 false (FT 4);
  mkF "ctxSz" 4 false (FT 4)].
(** src/wh_message_crypto.c 629-638; wolfhsm/wh_message_crypto.h 746. *)
Definition m_Crypto_Ed25519SignResponse : mdef := mkMsg "whMessageCrypto_Ed25519SignResponse" [
  mkF "sigSz" 4 false (FT 4)].
(** src/wh_message_crypto.c 641-655; wolfhsm/wh_message_crypto.h 762. *)
Definition m_Crypto_Ed25519VerifyRequest : mdef := mkMsg "whMessageCrypto_Ed25519VerifyRequest" [
  mkF "options" 4 false (FT 4);
  mkF "keyId" 4 false (FT 4);
  mkF "sigSz" 4 false (FT 4);
  mkF "msgSz" 4 false (FT 4);
  mkF "type" 4 false (FT 4);
  mkF "ctxSz" 4 false (FT 4)].
(** src/wh_message_crypto.c 658-667; wolfhsm/wh_message_crypto.h 778. *)
Definition m_Crypto_Ed25519VerifyResponse : mdef := mkMsg "whMessageCrypto_Ed25519VerifyResponse" [
  mkF "res" 4 false (FT 4)].
(** src/wh_message_crypto.c 672-689; wolfhsm/wh_message_crypto.h 806. *)
Definition m_Crypto_Sha256Request : mdef := mkMsg "whMessageCrypto_Sha256Request" [
  mkF "resumeState.hiLen" 4 false (FT 4);
  mkF "resumeState.loLen" 4 false (FT 4);
  mkF "resumeState.hash" 1 false FCopy;
  mkF "isLastBlock" 4 false (FT 4);
  mkF "inSz" 4 false (FT 4)].
(** src/wh_message_crypto.c 695-713; wolfhsm/wh_message_crypto.h 861. *)
Definition m_Crypto_Sha512Request : mdef := mkMsg "whMessageCrypto_Sha512Request" [
  mkF "resumeState.hiLen" 4 false (FT 4);
  mkF "resumeState.loLen" 4 false (FT 4);
  mkF "resumeState.hash" 1 false FCopy;
  mkF "resumeState.hashType" 4 false (FT 4);
  mkF "isLastBlock" 4 false (FT 4);
  mkF "inSz" 4 false (FT 4)].
(** src/wh_message_crypto.c 717-732; wolfhsm/wh_message_crypto.h 901. *)
Definition m_Crypto_Sha2Response : mdef := mkMsg "whMessageCrypto_Sha2Response" [
  mkF "hiLen" 4 false (FT 4);
  mkF "loLen" 4 false (FT 4);
  mkF "hash" 1 false FCopy;
  mkF "hashType" 4 false (FT 4)].
(** src/wh_message_crypto.c 736-749; wolfhsm/wh_message_crypto.h 939. *)
Definition m_Crypto_Sha3State : mdef := mkMsg "whMessageCrypto_Sha3State" [
  mkF "s" 8 false (FT 8)].
(** src/wh_message_crypto.c 753-764; wolfhsm/wh_message_crypto.h 944. *)
Definition m_Crypto_Sha3Request : mdef := mkMsg "whMessageCrypto_Sha3Request" [
  mkF "isLastBlock" 4 false (FT 4);
  mkF "inSz" 4 false (FT 4);
  mkF "resumeState.s" 8 false (FT 8)].
(** src/wh_message_crypto.c 767-785; wolfhsm/wh_message_crypto.h 953. *)
Definition m_Crypto_Sha3Response : mdef := mkMsg "whMessageCrypto_Sha3Response" [
  mkF "resumeState.s" 8 false (FT 8);
  mkF "hash" 1 false FCopy].
(** src/wh_message_crypto.c 789-802; wolfhsm/wh_message_crypto.h 1046. *)
Definition m_Crypto_CmacAesState : mdef := mkMsg "whMessageCrypto_CmacAesState" [
  mkF "buffer" 1 false FCopy;
  mkF "digest" 1 false FCopy;
  mkF "bufferSz" 4 false (FT 4);
  mkF "totalSz" 4 false (FT 4)].
(** src/wh_message_crypto.c 805-818; wolfhsm/wh_message_crypto.h 1054. *)
Definition m_Crypto_CmacAesRequest : mdef := mkMsg "whMessageCrypto_CmacAesRequest" [
  mkF "outSz" 4 false (FT 4);
  mkF "inSz" 4 false (FT 4);
  mkF "keySz" 4 false (FT 4);
  mkF "keyId" 2 false (FT 2);
  mkF "WH_PAD" 1 true FNone;
  mkF "resumeState.buffer" 1 false FCopy;
  mkF "resumeState.digest" 1 false FCopy;
  mkF "resumeState.bufferSz" 4 false (FT 4);
  mkF "resumeState.totalSz" 4 false (FT 4)].
(** src/wh_message_crypto.c 821-832; wolfhsm/wh_message_crypto.h 1068. *)
Definition m_Crypto_CmacAesResponse : mdef := mkMsg "whMessageCrypto_CmacAesResponse" [
  mkF "resumeState.buffer" 1 false FCopy;
  mkF "resumeState.digest" 1 false FCopy;
  mkF "resumeState.bufferSz" 4 false (FT 4);
  mkF "resumeState.totalSz" 4 false (FT 4);
  mkF "outSz" 4 false (FT 4);
  mkF "keyId" 2 false (FT 2);
  mkF "WH_PAD" 1 true FNone].
(** src/wh_message_crypto.c 835-852; wolfhsm/wh_message_crypto.h 1105. *)
Definition m_Crypto_MlDsaKeyGenRequest : mdef := mkMsg "whMessageCrypto_MlDsaKeyGenRequest" [
  mkF "sz" 4 false (FT 4);
  mkF "level" 4 false (FT 4);
  mkF "keyId" 4 false (FT 4);
  mkF "flags" 4 false (FT 4);
  mkF "access" 4 false (FT 4);
  mkF "label" 1 false FCopy].
(** src/wh_message_crypto.c 855-865; wolfhsm/wh_message_crypto.h 1115. *)
Definition m_Crypto_MlDsaKeyGenResponse : mdef := mkMsg "whMessageCrypto_MlDsaKeyGenResponse" [
  mkF "keyId" 4 false (FT 4);
  mkF "len" 4 false (FT 4)].
(** src/wh_message_crypto.c 868-882; wolfhsm/wh_message_crypto.h 1132. *)
Definition m_Crypto_MlDsaSignRequest : mdef := mkMsg "whMessageCrypto_MlDsaSignRequest" [
  mkF "options" 4 false (FT 4);
  mkF "level" 4 false (FT 4);
  mkF "keyId" 4 false (FT 4);
  mkF "sz" 4 false (FT 4);
  mkF "contextSz" 4 false (FT 4);
  mkF "preHashType" 4 false (FT 4)].
(** src/wh_message_crypto.c 885-894; wolfhsm/wh_message_crypto.h 1147. *)
Definition m_Crypto_MlDsaSignResponse : mdef := mkMsg "whMessageCrypto_MlDsaSignResponse" [
  mkF "sz" 4 false (FT 4);
  mkF "WH_PAD" 1 true FNone].
(** src/wh_message_crypto.c 897-912; wolfhsm/wh_message_crypto.h 1164. *)
Definition m_Crypto_MlDsaVerifyRequest : mdef := mkMsg "whMessageCrypto_MlDsaVerifyRequest" [
  mkF "options" 4 false (FT 4);
  mkF "level" 4 false (FT 4);
  mkF "keyId" 4 false (FT 4);
  mkF "sigSz" 4 false (FT 4);
  mkF "hashSz" 4 false (FT 4);
  mkF "contextSz" 4 false (FT 4);
  mkF "preHashType" 4 false (FT 4);
  mkF "WH_PAD" 1 true FNone].
(** src/wh_message_crypto.c 915-924; wolfhsm/wh_message_crypto.h 1183. *)
Definition m_Crypto_MlDsaVerifyResponse : mdef := mkMsg "whMessageCrypto_MlDsaVerifyResponse" [
  mkF "res" 4 false (FT 4);
  mkF "WH_PAD" 1 true FNone].
(** src/wh_message_crypto.c 927-942; wolfhsm/wh_message_crypto.h 1201. *)
Definition m_Crypto_MlKemKeyGenRequest : mdef := mkMsg "whMessageCrypto_MlKemKeyGenRequest" [
  mkF "level" 4 false (FT 4);
  mkF "keyId" 4 false (FT 4);
  mkF "flags" 4 false (FT 4);
  mkF "access" 4 false (FT 4);
  mkF "label" 1 false FCopy].
(** src/wh_message_crypto.c 945-955; wolfhsm/wh_message_crypto.h 1210. *)
Definition m_Crypto_MlKemKeyGenResponse : mdef := mkMsg "whMessageCrypto_MlKemKeyGenResponse" [
  mkF "keyId" 4 false (FT 4);
  mkF "len" 4 false (FT 4)].
(** src/wh_message_crypto.c 958-969; wolfhsm/wh_message_crypto.h 1227. *)
Definition m_Crypto_MlKemEncapsRequest : mdef := mkMsg "whMessageCrypto_MlKemEncapsRequest" [
  mkF "options" 4 false (FT 4);
  mkF "level" 4 false (FT 4);
  mkF "keyId" 4 false (FT 4);
  mkF "WH_PAD" 1 true FNone].
(** src/wh_message_crypto.c 972-982; wolfhsm/wh_message_crypto.h 1236. *)
Definition m_Crypto_MlKemEncapsResponse : mdef := mkMsg "whMessageCrypto_MlKemEncapsResponse" [
  mkF "ctSz" 4 false (FT 4);
  mkF "ssSz" 4 false (FT 4)].
(** src/wh_message_crypto.c 985-997; wolfhsm/wh_message_crypto.h 1254. *)
Definition m_Crypto_MlKemDecapsRequest : mdef := mkMsg "whMessageCrypto_MlKemDecapsRequest" [
  mkF "options" 4 false (FT 4);
  mkF "level" 4 false (FT 4);
  mkF "keyId" 4 false (FT 4);
  mkF "ctSz" 4 false (FT 4)].
(** src/wh_message_crypto.c 1000-1009; wolfhsm/wh_message_crypto.h 1266. *)
Definition m_Crypto_MlKemDecapsResponse : mdef := mkMsg "whMessageCrypto_MlKemDecapsResponse" [
  mkF "ssSz" 4 false (FT 4);
  mkF "WH_PAD" 1 true FNone].
(** src/wh_message_crypto.c 1016-1027; wolfhsm/wh_message_crypto.h 1288. *)
Definition m_Crypto_DmaBuffer : mdef := mkMsg "whMessageCrypto_DmaBuffer" [
  mkF "addr" 8 false (FT 8);
  mkF "sz" 8 false (FT 8)].
(** src/wh_message_crypto.c 1030-1039; wolfhsm/wh_message_crypto.h 1294. *)
Definition m_Crypto_DmaAddrStatus : mdef := mkMsg "whMessageCrypto_DmaAddrStatus" [
  mkF "badAddr.addr" 8 false (FT 8);
  mkF "badAddr.sz" 8 false (FT 8)].
(** src/wh_message_crypto.c 1042-1068; wolfhsm/wh_message_crypto.h 1313. *)
Definition m_Crypto_Sha256DmaRequest : mdef := mkMsg "whMessageCrypto_Sha256DmaRequest" [
  mkF "resumeState.hiLen" 4 false (FT 4);
  mkF "resumeState.loLen" 4 false (FT 4);
  mkF "resumeState.hash" 1 false FCopy;
  mkF "input.addr" 8 false (FT 8);
  mkF "input.sz" 8 false (FT 8);
  mkF "isLastBlock" 4 false (FT 4);
  mkF "inSz" 4 false (FT 4)].
(** src/wh_message_crypto.c 1071-1098; wolfhsm/wh_message_crypto.h 1325. *)
Definition m_Crypto_Sha512DmaRequest : mdef := mkMsg "whMessageCrypto_Sha512DmaRequest" [
  mkF "resumeState.hiLen" 4 false (FT 4);
  mkF "resumeState.loLen" 4 false (FT 4);
  mkF "resumeState.hash" 1 false FCopy;
  mkF "resumeState.hashType" 4 false (FT 4);
  mkF "resumeState.WH_PAD" 1 true FNone;
  mkF "input.addr" 8 false (FT 8);
  mkF "input.sz" 8 false (FT 8);
  mkF "isLastBlock" 4 false (FT 4);
  mkF "inSz" 4 false (FT 4)].
(** src/wh_message_crypto.c 1101-1118; wolfhsm/wh_message_crypto.h 1341. *)
Definition m_Crypto_Sha2DmaResponse : mdef := mkMsg "whMessageCrypto_Sha2DmaResponse" [
  mkF "dmaAddrStatus.badAddr.addr" 8 false (FT 8);
  mkF "dmaAddrStatus.badAddr.sz" 8 false (FT 8);
  mkF "hash" 1 false FCopy;
  mkF "hiLen" 4 false (FT 4);
  mkF "loLen" 4 false (FT 4);
  mkF "hashType" 4 false (FT 4);
  mkF "WH_PAD" 1 true FNone].
(** src/wh_message_crypto.c 1121-1138; wolfhsm/wh_message_crypto.h 1378. *)
Definition m_Crypto_Sha3DmaRequest : mdef := mkMsg "whMessageCrypto_Sha3DmaRequest" [
  mkF "input.addr" 8 false (FT 8);
  mkF "input.sz" 8 false (FT 8);
  mkF "isLastBlock" 4 false (FT 4);
  mkF "inSz" 4 false (FT 4);
  mkF "resumeState.s" 8 false (FT 8)].
(** src/wh_message_crypto.c 1141-1160; wolfhsm/wh_message_crypto.h 1386. *)
Definition m_Crypto_Sha3DmaResponse : mdef := mkMsg "whMessageCrypto_Sha3DmaResponse" [
  mkF "resumeState.s" 8 false (FT 8);
  mkF "dmaAddrStatus.badAddr.addr" 8 false (FT 8);
  mkF "dmaAddrStatus.badAddr.sz" 8 false (FT 8);
  mkF "hash" 1 false FCopy].
(** src/wh_message_crypto.c 1163-1186; wolfhsm/wh_message_crypto.h 1444. *)
Definition m_Crypto_CmacAesDmaRequest : mdef := mkMsg "whMessageCrypto_CmacAesDmaRequest" [
  mkF "resumeState.buffer" 1 false FCopy;
  mkF "resumeState.digest" 1 false FCopy;
  mkF "resumeState.bufferSz" 4 false (FT 4);
  mkF "resumeState.totalSz" 4 false (FT 4);
  mkF "input.addr" 8 false (FT 8);
  mkF "input.sz" 8 false (FT 8);
  mkF "outSz" 4 false (FT 4);
  mkF "keySz" 4 false (FT 4);
  mkF "inlineInSz" 4 false (FT 4);
  mkF "keyId" 2 false (FT 2);
  mkF "WH_PAD" 1 true FNone].
(** src/wh_message_crypto.c 1189-1211; wolfhsm/wh_message_crypto.h 1458. *)
Definition m_Crypto_CmacAesDmaResponse : mdef := mkMsg "whMessageCrypto_CmacAesDmaResponse" [
  mkF "resumeState.buffer" 1 false FCopy;
  mkF "resumeState.digest" 1 false FCopy;
  mkF "resumeState.bufferSz" 4 false (FT 4);
  mkF "resumeState.totalSz" 4 false (FT 4);
  mkF "dmaAddrStatus.badAddr.addr" 8 false (FT 8);
  mkF "dmaAddrStatus.badAddr.sz" 8 false (FT 8);
  mkF "outSz" 4 false (FT 4);
  mkF "keyId" 2 false (FT 2);
  mkF "WH_PAD" 1 true FNone].
(** src/wh_message_crypto.c 1214-1240; wolfhsm/wh_message_crypto.h 1606. *)
Definition m_Crypto_MlDsaKeyGenDmaRequest : mdef := mkMsg "whMessageCrypto_MlDsaKeyGenDmaRequest" [
  mkF "key.addr" 8 false (FT 8);
  mkF "key.sz" 8 false (FT 8);
  mkF "level" 4 false (FT 4);
  mkF "flags" 4 false (FT 4);
  mkF "keyId" 4 false (FT 4);
  mkF "access" 4 false (FT 4);
  mkF "labelSize" 4 false (FT 4);
  mkF "label" 1 false FCopy;
  mkF "WH_PAD2" 1 true FNone].
(** src/wh_message_crypto.c 1243-1262; wolfhsm/wh_message_crypto.h 1618. *)
Definition m_Crypto_MlDsaKeyGenDmaResponse : mdef := mkMsg "whMessageCrypto_MlDsaKeyGenDmaResponse" [
  mkF "dmaAddrStatus.badAddr.addr" 8 false (FT 8);
  mkF "dmaAddrStatus.badAddr.sz" 8 false (FT 8);
  mkF "keyId" 4 false (FT 4);
  mkF "keySize" 4 false (FT 4)].
(** src/wh_message_crypto.c 1265-1292; wolfhsm/wh_message_crypto.h 1625. *)
Definition m_Crypto_MlDsaSignDmaRequest : mdef := mkMsg "whMessageCrypto_MlDsaSignDmaRequest" [
  mkF "msg.addr" 8 false (FT 8);
  mkF "msg.sz" 8 false (FT 8);
  mkF "sig.addr" 8 false (FT 8);
  mkF "sig.sz" 8 false (FT 8);
  mkF "options" 4 false (FT 4);
  mkF "level" 4 false (FT 4);
  mkF "keyId" 4 false (FT 4);
  mkF "contextSz" 4 false (FT 4);
  mkF "preHashType" 4 false (FT 4);
  mkF "WH_PAD" 1 true FNone].
(** src/wh_message_crypto.c 1295-1313; wolfhsm/wh_message_crypto.h 1640. *)
Definition m_Crypto_MlDsaSignDmaResponse : mdef := mkMsg "whMessageCrypto_MlDsaSignDmaResponse" [
  mkF "dmaAddrStatus.badAddr.addr" 8 false (FT 8);
  mkF "dmaAddrStatus.badAddr.sz" 8 false (FT 8);
  mkF "sigLen" 4 false (FT 4);
  mkF "WH_PAD" 1 true FNone].
(** src/wh_message_crypto.c 1316-1343; wolfhsm/wh_message_crypto.h 1647. *)
Definition m_Crypto_MlDsaVerifyDmaRequest : mdef := mkMsg "whMessageCrypto_MlDsaVerifyDmaRequest" [
  mkF "sig.addr" 8 false (FT 8);
  mkF "sig.sz" 8 false (FT 8);
  mkF "msg.addr" 8 false (FT 8);
  mkF "msg.sz" 8 false (FT 8);
  mkF "options" 4 false (FT 4);
  mkF "level" 4 false (FT 4);
  mkF "keyId" 4 false (FT 4);
  mkF "contextSz" 4 false (FT 4);
  mkF "preHashType" 4 false (FT 4);
  mkF "WH_PAD" 1 true FNone].
(** src/wh_message_crypto.c 1346-1364; wolfhsm/wh_message_crypto.h 1662. *)
Definition m_Crypto_MlDsaVerifyDmaResponse : mdef := mkMsg "whMessageCrypto_MlDsaVerifyDmaResponse" [
  mkF "dmaAddrStatus.badAddr.addr" 8 false (FT 8);
  mkF "dmaAddrStatus.badAddr.sz" 8 false (FT 8);
  mkF "verifyResult" 4 false (FT 4);
  mkF "WH_PAD" 1 true FNone].
(** src/wh_message_crypto.c 1367-1392; wolfhsm/wh_message_crypto.h 1694. *)
Definition m_Crypto_MlKemKeyGenDmaRequest : mdef := mkMsg "whMessageCrypto_MlKemKeyGenDmaRequest" [
  mkF "key.addr" 8 false (FT 8);
  mkF "key.sz" 8 false (FT 8);
  mkF "level" 4 false (FT 4);
  mkF "flags" 4 false (FT 4);
  mkF "keyId" 4 false (FT 4);
  mkF "access" 4 false (FT 4);
  mkF "labelSize" 4 false (FT 4);
  mkF "label" 1 false FCopy;
  mkF "WH_PAD2" 1 true FNone].
(** src/wh_message_crypto.c 1395-1414; wolfhsm/wh_message_crypto.h 1706. *)
Definition m_Crypto_MlKemKeyGenDmaResponse : mdef := mkMsg "whMessageCrypto_MlKemKeyGenDmaResponse" [
  mkF "dmaAddrStatus.badAddr.addr" 8 false (FT 8);
  mkF "dmaAddrStatus.badAddr.sz" 8 false (FT 8);
  mkF "keyId" 4 false (FT 4);
  mkF "keySize" 4 false (FT 4)].
(** src/wh_message_crypto.c 1417-1436; wolfhsm/wh_message_crypto.h 1716. *)
Definition m_Crypto_MlKemEncapsDmaRequest : mdef := mkMsg "whMessageCrypto_MlKemEncapsDmaRequest" [
  mkF "ct.addr" 8 false (FT 8);
  mkF "ct.sz" 8 false (FT 8);
  mkF "options" 4 false (FT 4);
  mkF "level" 4 false (FT 4);
  mkF "keyId" 4 false (FT 4);
  mkF "WH_PAD" 1 true FNone].
(** src/wh_message_crypto.c 1439-1458; wolfhsm/wh_message_crypto.h 1725. *)
Definition m_Crypto_MlKemEncapsDmaResponse : mdef := mkMsg "whMessageCrypto_MlKemEncapsDmaResponse" [
  mkF "dmaAddrStatus.badAddr.addr" 8 false (FT 8);
  mkF "dmaAddrStatus.badAddr.sz" 8 false (FT 8);
  mkF "ctLen" 4 false (FT 4);
  mkF "ssLen" 4 false (FT 4)].
(** src/wh_message_crypto.c 1461-1480; wolfhsm/wh_message_crypto.h 1737. *)
Definition m_Crypto_MlKemDecapsDmaRequest : mdef := mkMsg "whMessageCrypto_MlKemDecapsDmaRequest" [
  mkF "ct.addr" 8 false (FT 8);
  mkF "ct.sz" 8 false (FT 8);
  mkF "options" 4 false (FT 4);
  mkF "level" 4 false (FT 4);
  mkF "keyId" 4 false (FT 4);
  mkF "WH_PAD" 1 true FNone].
(** src/wh_message_crypto.c 1483-1501; wolfhsm/wh_message_crypto.h 1746. *)
Definition m_Crypto_MlKemDecapsDmaResponse : mdef := mkMsg "whMessageCrypto_MlKemDecapsDmaResponse" [
  mkF "dmaAddrStatus.badAddr.addr" 8 false (FT 8);
  mkF "dmaAddrStatus.badAddr.sz" 8 false (FT 8);
  mkF "ssLen" 4 false (FT 4);
  mkF "WH_PAD" 1 true FNone].
(** src/wh_message_crypto.c 1504-1533; wolfhsm/wh_message_crypto.h 1791. *)
Definition m_Crypto_PqcStatefulSigKeyGenDmaRequest : mdef := mkMsg "whMessageCrypto_PqcStatefulSigKeyGenDmaRequest" [
  mkF "pub.addr" 8 false (FT 8);
  mkF "pub.sz" 8 false (FT 8);
  mkF "flags" 4 false (FT 4);
  mkF "keyId" 4 false (FT 4);
  mkF "access" 4 false (FT 4);
  mkF "labelSize" 4 false (FT 4);
  mkF "lmsLevels" 4 false (FT 4);
  mkF "lmsHeight" 4 false (FT 4);
  mkF "lmsWinternitz" 4 false (FT 4);
  mkF "label" 1 false FCopy;
  mkF "xmssParamStr" 1 false FCopy;
  mkF "WH_PAD" 1 true FNone].
(** src/wh_message_crypto.c 1536-1556; wolfhsm/wh_message_crypto.h 1806. *)
Definition m_Crypto_PqcStatefulSigKeyGenDmaResponse : mdef := mkMsg "whMessageCrypto_PqcStatefulSigKeyGenDmaResponse" [
  mkF "dmaAddrStatus.badAddr.addr" 8 false (FT 8);
  mkF "dmaAddrStatus.badAddr.sz" 8 false (FT 8);
  mkF "keyId" 4 false (FT 4);
  mkF "pubSize" 4 false (FT 4)].
(** src/wh_message_crypto.c 1559-1582; wolfhsm/wh_message_crypto.h 1813. *)
Definition m_Crypto_PqcStatefulSigSignDmaRequest : mdef := mkMsg "whMessageCrypto_PqcStatefulSigSignDmaRequest" [
  mkF "msg.addr" 8 false (FT 8);
  mkF "msg.sz" 8 false (FT 8);
  mkF "sig.addr" 8 false (FT 8);
  mkF "sig.sz" 8 false (FT 8);
  mkF "options" 4 false (FT 4);
  mkF "keyId" 4 false (FT 4)].
(** src/wh_message_crypto.c 1585-1604; wolfhsm/wh_message_crypto.h 1822. *)
Definition m_Crypto_PqcStatefulSigSignDmaResponse : mdef := mkMsg "whMessageCrypto_PqcStatefulSigSignDmaResponse" [
  mkF "dmaAddrStatus.badAddr.addr" 8 false (FT 8);
  mkF "dmaAddrStatus.badAddr.sz" 8 false (FT 8);
  mkF "sigLen" 4 false (FT 4);
  mkF "WH_PAD" 1 true FNone].
(** src/wh_message_crypto.c 1607-1630; wolfhsm/wh_message_crypto.h 1829. *)
Definition m_Crypto_PqcStatefulSigVerifyDmaRequest : mdef := mkMsg "whMessageCrypto_PqcStatefulSigVerifyDmaRequest" [
  mkF "sig.addr" 8 false (FT 8);
  mkF "sig.sz" 8 false (FT 8);
  mkF "msg.addr" 8 false (FT 8);
  mkF "msg.sz" 8 false (FT 8);
  mkF "options" 4 false (FT 4);
  mkF "keyId" 4 false (FT 4)].
(** src/wh_message_crypto.c 1633-1652; wolfhsm/wh_message_crypto.h 1837. *)
Definition m_Crypto_PqcStatefulSigVerifyDmaResponse : mdef := mkMsg "whMessageCrypto_PqcStatefulSigVerifyDmaResponse" [
  mkF "dmaAddrStatus.badAddr.addr" 8 false (FT 8);
  mkF "dmaAddrStatus.badAddr.sz" 8 false (FT 8);
  mkF "res" 4 false (FT 4);
  mkF "WH_PAD" 1 true FNone].
(** src/wh_message_crypto.c 1655-1666; wolfhsm/wh_message_crypto.h 1847. *)
Definition m_Crypto_PqcStatefulSigSigsLeftDmaRequest : mdef := mkMsg "whMessageCrypto_PqcStatefulSigSigsLeftDmaRequest" [
  mkF "keyId" 4 false (FT 4)].
(** src/wh_message_crypto.c 1669-1680; wolfhsm/wh_message_crypto.h 1852. *)
Definition m_Crypto_PqcStatefulSigSigsLeftDmaResponse : mdef := mkMsg "whMessageCrypto_PqcStatefulSigSigsLeftDmaResponse" [
  mkF "sigsLeft" 4 false (FT 4)].
(** src/wh_message_crypto.c 1683-1713; wolfhsm/wh_message_crypto.h 1898. *)
Definition m_Crypto_Ed25519SignDmaRequest : mdef := mkMsg "whMessageCrypto_Ed25519SignDmaRequest" [
  mkF "msg.addr" 8 false (FT 8);
  mkF "msg.sz" 8 false (FT 8);
  mkF "sig.addr" 8 false (FT 8);
  mkF "sig.sz" 8 false (FT 8);
  mkF "pub.addr" 8 false (FT 8);
  mkF "pub.sz" 8 false (FT 8);
  mkF "options" 4 false (FT 4);
  mkF "keyId" 4 false (FT 4);
  mkF "type" 4 false (FT 4);
  mkF "ctxSz" 4 false (FT 4)].
(** src/wh_message_crypto.c 1716-1735; wolfhsm/wh_message_crypto.h 1912. *)
Definition m_Crypto_Ed25519SignDmaResponse : mdef := mkMsg "whMessageCrypto_Ed25519SignDmaResponse" [
  mkF "dmaAddrStatus.badAddr.addr" 8 false (FT 8);
  mkF "dmaAddrStatus.badAddr.sz" 8 false (FT 8);
  mkF "sigSz" 4 false (FT 4);
  mkF "pubSz" 4 false (FT 4)].
(** src/wh_message_crypto.c 1738-1768; wolfhsm/wh_message_crypto.h 1919. *)
Definition m_Crypto_Ed25519VerifyDmaRequest : mdef := mkMsg "whMessageCrypto_Ed25519VerifyDmaRequest" [
  mkF "sig.addr" 8 false (FT 8);
  mkF "sig.sz" 8 false (FT 8);
  mkF "msg.addr" 8 false (FT 8);
  mkF "msg.sz" 8 false (FT 8);
  mkF "pub.addr" 8 false (FT 8);
  mkF "pub.sz" 8 false (FT 8);
  mkF "options" 4 false (FT 4);
  mkF "keyId" 4 false (FT 4);
  mkF "type" 4 false (FT 4);
  mkF "ctxSz" 4 false (FT 4)].
(** src/wh_message_crypto.c 1771-1790; wolfhsm/wh_message_crypto.h 1933. *)
Definition m_Crypto_Ed25519VerifyDmaResponse : mdef := mkMsg "whMessageCrypto_Ed25519VerifyDmaResponse" [
  mkF "dmaAddrStatus.badAddr.addr" 8 false (FT 8);
  mkF "dmaAddrStatus.badAddr.sz" 8 false (FT 8);
  mkF "verifyResult" 4 false (FT 4);
  mkF "pubSz" 4 false (FT 4)].
(** src/wh_message_crypto.c 1793-1810; wolfhsm/wh_message_crypto.h 1478. *)
Definition m_Crypto_AesEcbDmaRequest : mdef := mkMsg "whMessageCrypto_AesEcbDmaRequest" [
  mkF "input.addr" 8 false (FT 8);
  mkF "input.sz" 8 false (FT 8);
  mkF "output.addr" 8 false (FT 8);
  mkF "output.sz" 8 false (FT 8);
  mkF "enc" 4 false (FT 4);
  mkF "keyId" 4 false (FT 4);
  mkF "keySz" 4 false (FT 4);
  mkF "WH_PAD" 1 true FNone].
(** src/wh_message_crypto.c 1812-1826; wolfhsm/wh_message_crypto.h 1489. *)
Definition m_Crypto_AesEcbDmaResponse : mdef := mkMsg "whMessageCrypto_AesEcbDmaResponse" [
  mkF "dmaAddrStatus.badAddr.addr" 8 false (FT 8);
  mkF "dmaAddrStatus.badAddr.sz" 8 false (FT 8);
  mkF "outSz" 4 false (FT 4);
  mkF "WH_PAD" 1 true FNone].
(** src/wh_message_crypto.c 1829-1846; wolfhsm/wh_message_crypto.h 1506. *)
Definition m_Crypto_AesCbcDmaRequest : mdef := mkMsg "whMessageCrypto_AesCbcDmaRequest" [
  mkF "input.addr" 8 false (FT 8);
  mkF "input.sz" 8 false (FT 8);
  mkF "output.addr" 8 false (FT 8);
  mkF "output.sz" 8 false (FT 8);
  mkF "enc" 4 false (FT 4);
  mkF "keyId" 4 false (FT 4);
  mkF "keySz" 4 false (FT 4);
  mkF "WH_PAD" 1 true FNone].
(** src/wh_message_crypto.c 1848-1861; wolfhsm/wh_message_crypto.h 1520. *)
Definition m_Crypto_AesCbcDmaResponse : mdef := mkMsg "whMessageCrypto_AesCbcDmaResponse" [
  mkF "dmaAddrStatus.badAddr.addr" 8 false (FT 8);
  mkF "dmaAddrStatus.badAddr.sz" 8 false (FT 8);
  mkF "outSz" 4 false (FT 4);
  mkF "WH_PAD" 1 true FNone].
(** src/wh_message_crypto.c 1864-1882; wolfhsm/wh_message_crypto.h 1537. *)
Definition m_Crypto_AesCtrDmaRequest : mdef := mkMsg "whMessageCrypto_AesCtrDmaRequest" [
  mkF "input.addr" 8 false (FT 8);
  mkF "input.sz" 8 false (FT 8);
  mkF "output.addr" 8 false (FT 8);
  mkF "output.sz" 8 false (FT 8);
  mkF "enc" 4 false (FT 4);
  mkF "left" 4 false (FT 4);
  mkF "keyId" 4 false (FT 4);
  mkF "keySz" 4 false (FT 4)].
(** src/wh_message_crypto.c 1885-1900; wolfhsm/wh_message_crypto.h 1552. *)
Definition m_Crypto_AesCtrDmaResponse : mdef := mkMsg "whMessageCrypto_AesCtrDmaResponse" [
  mkF "dmaAddrStatus.badAddr.addr" 8 false (FT 8);
  mkF "dmaAddrStatus.badAddr.sz" 8 false (FT 8);
  mkF "outSz" 4 false (FT 4);
  mkF "left" 4 false (FT 4)].
(** src/wh_message_crypto.c 1903-1922; wolfhsm/wh_message_crypto.h 1571. *)
Definition m_Crypto_AesGcmDmaRequest : mdef := mkMsg "whMessageCrypto_AesGcmDmaRequest" [
  mkF "input.addr" 8 false (FT 8);
  mkF "input.sz" 8 false (FT 8);
  mkF "output.addr" 8 false (FT 8);
  mkF "output.sz" 8 false (FT 8);
  mkF "aad.addr" 8 false (FT 8);
  mkF "aad.sz" 8 false (FT 8);
  mkF "enc" 4 false (FT 4);
  mkF "keyId" 4 false (FT 4);
  mkF "keySz" 4 false (FT 4);
  mkF "ivSz" 4 false (FT 4);
  mkF "authTagSz" 4 false (FT 4);
  mkF "WH_PAD" 1 true FNone].
(** src/wh_message_crypto.c 1925-1940; wolfhsm/wh_message_crypto.h 1589. *)
Definition m_Crypto_AesGcmDmaResponse : mdef := mkMsg "whMessageCrypto_AesGcmDmaResponse" [
  mkF "dmaAddrStatus.badAddr.addr" 8 false (FT 8);
  mkF "dmaAddrStatus.badAddr.sz" 8 false (FT 8);
  mkF "outSz" 4 false (FT 4);
  mkF "authTagSz" 4 false (FT 4)].
(** src/wh_message_crypto.c 1943-1953; wolfhsm/wh_message_crypto.h 1956. *)
Definition m_Crypto_RngDmaRequest : mdef := mkMsg "whMessageCrypto_RngDmaRequest" [
  mkF "output.addr" 8 false (FT 8);
  mkF "output.sz" 8 false (FT 8)].
(** src/wh_message_crypto.c 1956-1966; wolfhsm/wh_message_crypto.h 1961. *)
Definition m_Crypto_RngDmaResponse : mdef := mkMsg "whMessageCrypto_RngDmaResponse" [
  mkF "dmaAddrStatus.badAddr.addr" 8 false (FT 8);
  mkF "dmaAddrStatus.badAddr.sz" 8 false (FT 8)].
(** src/wh_message_keystore.c 31-47; wolfhsm/wh_message_keystore.h 37. *)
Definition m_Keystore_CacheRequest : mdef := mkMsg "whMessageKeystore_CacheRequest" [
  mkF "flags" 4 false (FT 4);
  mkF "sz" 4 false (FT 4);
  mkF "labelSz" 4 false (FT 4);
  mkF "id" 2 false (FT 2);
  mkF "WH_PAD" 1 true FNone;
  mkF "label" 1 false FCopy].
(** src/wh_message_keystore.c 50-60; wolfhsm/wh_message_keystore.h 50. *)
Definition m_Keystore_CacheResponse : mdef := mkMsg "whMessageKeystore_CacheResponse" [
  mkF "rc" 4 false (FT 4);
  mkF "id" 2 false (FT 2);
  mkF "WH_PAD" 1 true FNone].
(** src/wh_message_keystore.c 63-79; wolfhsm/wh_message_keystore.h 68. *)
Definition m_Keystore_CacheRandomRequest : mdef := mkMsg "whMessageKeystore_CacheRandomRequest" [
  mkF "flags" 4 false (FT 4);
  mkF "labelSz" 4 false (FT 4);
  mkF "sz" 2 false (FT 2);
  mkF "id" 2 false (FT 2);
  mkF "WH_PAD" 1 true FNone;
  mkF "label" 1 false FCopy].
(** src/wh_message_keystore.c 82-92; wolfhsm/wh_message_keystore.h 78. *)
Definition m_Keystore_CacheRandomResponse : mdef := mkMsg "whMessageKeystore_CacheRandomResponse" [
  mkF "rc" 4 false (FT 4);
  mkF "id" 2 false (FT 2);
  mkF "WH_PAD" 1 true FNone].
(** src/wh_message_keystore.c 95-104; wolfhsm/wh_message_keystore.h 94. *)
Definition m_Keystore_EvictRequest : mdef := mkMsg "whMessageKeystore_EvictRequest" [
  mkF "id" 2 false (FT 2);
  mkF "WH_PAD" 1 true FNone].
(** src/wh_message_keystore.c 107-117; wolfhsm/wh_message_keystore.h 100. *)
Definition m_Keystore_EvictResponse : mdef := mkMsg "whMessageKeystore_EvictResponse" [
  mkF "rc" 4 false (FT 4);
  mkF "ok" 4 false (FT 4);
  mkF "WH_PAD" 1 true FNone].
(** src/wh_message_keystore.c 120-129; wolfhsm/wh_message_keystore.h 116. *)
Definition m_Keystore_CommitRequest : mdef := mkMsg "whMessageKeystore_CommitRequest" [
  mkF "id" 2 false (FT 2);
  mkF "WH_PAD" 1 true FNone].
(** src/wh_message_keystore.c 132-142; wolfhsm/wh_message_keystore.h 122. *)
Definition m_Keystore_CommitResponse : mdef := mkMsg "whMessageKeystore_CommitResponse" [
  mkF "rc" 4 false (FT 4);
  mkF "ok" 4 false (FT 4);
  mkF "WH_PAD" 1 true FNone].
(** src/wh_message_keystore.c 145-154; wolfhsm/wh_message_keystore.h 138. *)
Definition m_Keystore_ExportRequest : mdef := mkMsg "whMessageKeystore_ExportRequest" [
  mkF "id" 2 false (FT 2);
  mkF "WH_PAD" 1 true FNone].
(** src/wh_message_keystore.c 157-171; wolfhsm/wh_message_keystore.h 144. *)
Definition m_Keystore_ExportResponse : mdef := mkMsg "whMessageKeystore_ExportResponse" [
  mkF "rc" 4 false (FT 4);
  mkF "len" 4 false (FT 4);
  mkF "label" 1 false FCopy;
  mkF "WH_PAD" 1 true FNone].
(** src/wh_message_keystore.c 174-184; wolfhsm/wh_message_keystore.h 169. *)
Definition m_Keystore_ExportPublicRequest : mdef := mkMsg "whMessageKeystore_ExportPublicRequest" [
  mkF "id" 2 false (FT 2);
  mkF "algo" 2 false (FT 2);
  mkF "WH_PAD" 1 true FNone].
(** src/wh_message_keystore.c 187-201; wolfhsm/wh_message_keystore.h 176. *)
Definition m_Keystore_ExportPublicResponse : mdef := mkMsg "whMessageKeystore_ExportPublicResponse" [
  mkF "rc" 4 false (FT 4);
  mkF "len" 4 false (FT 4);
  mkF "label" 1 false FCopy;
  mkF "WH_PAD" 1 true FNone].
(** src/wh_message_keystore.c 204-213; wolfhsm/wh_message_keystore.h 196. *)
Definition m_Keystore_EraseRequest : mdef := mkMsg "whMessageKeystore_EraseRequest" [
  mkF "id" 2 false (FT 2);
  mkF "WH_PAD" 1 true FNone].
(** src/wh_message_keystore.c 216-226; wolfhsm/wh_message_keystore.h 202. *)
Definition m_Keystore_EraseResponse : mdef := mkMsg "whMessageKeystore_EraseResponse" [
  mkF "rc" 4 false (FT 4);
  mkF "ok" 4 false (FT 4);
  mkF "WH_PAD" 1 true FNone].
(** src/wh_message_keystore.c 229-238; wolfhsm/wh_message_keystore.h 218. *)
Definition m_Keystore_RevokeRequest : mdef := mkMsg "whMessageKeystore_RevokeRequest" [
  mkF "id" 2 false (FT 2);
  mkF "WH_PAD" 1 true FNone].
(** src/wh_message_keystore.c 241-250; wolfhsm/wh_message_keystore.h 224. *)
Definition m_Keystore_RevokeResponse : mdef := mkMsg "whMessageKeystore_RevokeResponse" [
  mkF "rc" 4 false (FT 4);
  mkF "WH_PAD" 1 true FNone].
(** src/wh_message_keystore.c 258-275; wolfhsm/wh_message_keystore.h 256. *)
Definition m_Keystore_CacheDmaRequest : mdef := mkMsg "whMessageKeystore_CacheDmaRequest" [
  mkF "key.addr" 8 false (FT 8);
  mkF "key.sz" 8 false (FT 8);
  mkF "flags" 4 false (FT 4);
  mkF "labelSz" 4 false (FT 4);
  mkF "id" 2 false (FT 2);
  mkF "label" 1 false FCopy;
  mkF "WH_PAD" 1 true FNone].
(** src/wh_message_keystore.c 278-290; wolfhsm/wh_message_keystore.h 267. *)
Definition m_Keystore_CacheDmaResponse : mdef := mkMsg "whMessageKeystore_CacheDmaResponse" [
  mkF "dmaAddrStatus.badAddr.addr" 8 false (FT 8);
  mkF "dmaAddrStatus.badAddr.sz" 8 false (FT 8);
  mkF "rc" 4 false (FT 4);
  mkF "id" 2 false (FT 2);
  mkF "WH_PAD" 1 true FNone].
(** src/wh_message_keystore.c 293-304; wolfhsm/wh_message_keystore.h 284. *)
Definition m_Keystore_ExportDmaRequest : mdef := mkMsg "whMessageKeystore_ExportDmaRequest" [
  mkF "key.addr" 8 false (FT 8);
  mkF "key.sz" 8 false (FT 8);
  mkF "id" 2 false (FT 2);
  mkF "WH_PAD" 1 true FNone].
(** src/wh_message_keystore.c 307-323; wolfhsm/wh_message_keystore.h 292. *)
Definition m_Keystore_ExportDmaResponse : mdef := mkMsg "whMessageKeystore_ExportDmaResponse" [
  mkF "dmaAddrStatus.badAddr.addr" 8 false (FT 8);
  mkF "dmaAddrStatus.badAddr.sz" 8 false (FT 8);
  mkF "rc" 4 false (FT 4);
  mkF "len" 4 false (FT 4);
  mkF "label" 1 false FCopy].
(** src/wh_message_keystore.c 326-338; wolfhsm/wh_message_keystore.h 314. *)
Definition m_Keystore_ExportPublicDmaRequest : mdef := mkMsg "whMessageKeystore_ExportPublicDmaRequest" [
  mkF "key.addr" 8 false (FT 8);
  mkF "key.sz" 8 false (FT 8);
  mkF "id" 2 false (FT 2);
  mkF "algo" 2 false (FT 2);
  mkF "WH_PAD" 1 true FNone].
(** src/wh_message_keystore.c 341-357; wolfhsm/wh_message_keystore.h 322. *)
Definition m_Keystore_ExportPublicDmaResponse : mdef := mkMsg "whMessageKeystore_ExportPublicDmaResponse" [
  mkF "dmaAddrStatus.badAddr.addr" 8 false (FT 8);
  mkF "dmaAddrStatus.badAddr.sz" 8 false (FT 8);
  mkF "rc" 4 false (FT 4);
  mkF "len" 4 false (FT 4);
  mkF "label" 1 false FCopy].
(** src/wh_message_keystore.c 362-373; wolfhsm/wh_message_keystore.h 339. *)
Definition m_Keystore_KeyWrapRequest : mdef := mkMsg "whMessageKeystore_KeyWrapRequest" [
  mkF "keySz" 2 false (FT 2);
  mkF "serverKeyId" 2 false (FT 2);
  mkF "cipherType" 2 false (FT 2)].
(** src/wh_message_keystore.c 376-387; wolfhsm/wh_message_keystore.h 350. *)
Definition m_Keystore_KeyWrapResponse : mdef := mkMsg "whMessageKeystore_KeyWrapResponse" [
  mkF "rc" 4 false (FT 4);
  mkF "wrappedKeySz" 2 false (FT 2);
  mkF "cipherType" 2 false (FT 2)].
(** src/wh_message_keystore.c 390-402; wolfhsm/wh_message_keystore.h 370. *)
Definition m_Keystore_KeyWrapExportRequest : mdef := mkMsg "whMessageKeystore_KeyWrapExportRequest" [
  mkF "keyId" 2 false (FT 2);
  mkF "keyType" 2 false (FT 2);
  mkF "serverKeyId" 2 false (FT 2);
  mkF "cipherType" 2 false (FT 2)].
(** src/wh_message_keystore.c 405-416; wolfhsm/wh_message_keystore.h 378. *)
Definition m_Keystore_KeyWrapExportResponse : mdef := mkMsg "whMessageKeystore_KeyWrapExportResponse" [
  mkF "rc" 4 false (FT 4);
  mkF "wrappedKeySz" 2 false (FT 2);
  mkF "cipherType" 2 false (FT 2)].
(** src/wh_message_keystore.c 419-430; wolfhsm/wh_message_keystore.h 397. *)
Definition m_Keystore_KeyUnwrapAndExportRequest : mdef := mkMsg "whMessageKeystore_KeyUnwrapAndExportRequest" [
  mkF "wrappedKeySz" 2 false (FT 2);
  mkF "serverKeyId" 2 false (FT 2);
  mkF "cipherType" 2 false (FT 2);
  mkF "WH_PAD" 1 true FNone].
(** src/wh_message_keystore.c 433-444; wolfhsm/wh_message_keystore.h 408. *)
Definition m_Keystore_KeyUnwrapAndExportResponse : mdef := mkMsg "whMessageKeystore_KeyUnwrapAndExportResponse" [
  mkF "rc" 4 false (FT 4);
  mkF "keySz" 2 false (FT 2);
  mkF "cipherType" 2 false (FT 2)].
(** src/wh_message_keystore.c 447-458; wolfhsm/wh_message_keystore.h 429. *)
Definition m_Keystore_KeyUnwrapAndCacheRequest : mdef := mkMsg "whMessageKeystore_KeyUnwrapAndCacheRequest" [
  mkF "wrappedKeySz" 2 false (FT 2);
  mkF "serverKeyId" 2 false (FT 2);
  mkF "cipherType" 2 false (FT 2);
  mkF "WH_PAD" 1 true FNone].
(** src/wh_message_keystore.c 461-472; wolfhsm/wh_message_keystore.h 440. *)
Definition m_Keystore_KeyUnwrapAndCacheResponse : mdef := mkMsg "whMessageKeystore_KeyUnwrapAndCacheResponse" [
  mkF "rc" 4 false (FT 4);
  mkF "keyId" 2 false (FT 2);
  mkF "cipherType" 2 false (FT 2)].
(** src/wh_message_keystore.c 475-486; wolfhsm/wh_message_keystore.h 456. *)
Definition m_Keystore_DataWrapRequest : mdef := mkMsg "whMessageKeystore_DataWrapRequest" [
  mkF "dataSz" 4 false (FT 4);
  mkF "serverKeyId" 2 false (FT 2);
  mkF "cipherType" 2 false (FT 2)].
(** src/wh_message_keystore.c 489-500; wolfhsm/wh_message_keystore.h 466. *)
Definition m_Keystore_DataWrapResponse : mdef := mkMsg "whMessageKeystore_DataWrapResponse" [
  mkF "rc" 4 false (FT 4);
  mkF "wrappedDataSz" 4 false (FT 4);
  mkF "cipherType" 2 false (FT 2);
  mkF "WH_PAD" 1 true FNone].
(** src/wh_message_keystore.c 503-514; wolfhsm/wh_message_keystore.h 486. *)
Definition m_Keystore_DataUnwrapRequest : mdef := mkMsg "whMessageKeystore_DataUnwrapRequest" [
  mkF "wrappedDataSz" 4 false (FT 4);
  mkF "serverKeyId" 2 false (FT 2);
  mkF "cipherType" 2 false (FT 2)].
(** src/wh_message_keystore.c 517-528; wolfhsm/wh_message_keystore.h 496. *)
Definition m_Keystore_DataUnwrapResponse : mdef := mkMsg "whMessageKeystore_DataUnwrapResponse" [
  mkF "rc" 4 false (FT 4);
  mkF "dataSz" 4 false (FT 4);
  mkF "cipherType" 2 false (FT 2);
  mkF "WH_PAD" 1 true FNone].
(** src/wh_message_nvm.c 40-55; wolfhsm/wh_common.h 129. *)
Definition m_Nvm_Metadata : mdef := mkMsg "whNvmMetadata" [
  mkF "id" 2 false (FT 2);
  mkF "access" 2 false (FT 2);
  mkF "flags" 2 false (FT 2);
  mkF "len" 2 false (FT 2);
  mkF "label" 1 false FCopy].
(** src/wh_message_nvm.c 57-66; wolfhsm/wh_message_nvm.h 62. *)
Definition m_Nvm_SimpleResponse : mdef := mkMsg "whMessageNvm_SimpleResponse" [
  mkF "rc" 4 false (FT 4)].
(** src/wh_message_nvm.c 68-77; wolfhsm/wh_message_nvm.h 71. *)
Definition m_Nvm_InitRequest : mdef := mkMsg "whMessageNvm_InitRequest" [
  mkF "clientnvm_id" 4 false (FT 4)].
(** src/wh_message_nvm.c 79-90; wolfhsm/wh_message_nvm.h 80. *)
Definition m_Nvm_InitResponse : mdef := mkMsg "whMessageNvm_InitResponse" [
  mkF "rc" 4 false (FT 4);
  mkF "servernvm_id" 4 false (FT 4);
  mkF "clientnvm_id" 4 false (FT 4)].
(** src/wh_message_nvm.c 92-103; wolfhsm/wh_message_nvm.h 130. *)
Definition m_Nvm_ListRequest : mdef := mkMsg "whMessageNvm_ListRequest" [
  mkF "access" 2 false (FT 2);
  mkF "flags" 2 false (FT 2);
  mkF "startId" 2 false (FT 2)].
(** src/wh_message_nvm.c 105-116; wolfhsm/wh_message_nvm.h 141. *)
Definition m_Nvm_ListResponse : mdef := mkMsg "whMessageNvm_ListResponse" [
  mkF "rc" 4 false (FT 4);
  mkF "count" 2 false (FT 2);
  mkF "id" 2 false (FT 2)].
(** src/wh_message_nvm.c 118-131; wolfhsm/wh_message_nvm.h 100. *)
Definition m_Nvm_GetAvailableResponse : mdef := mkMsg "whMessageNvm_GetAvailableResponse" [
  mkF "rc" 4 false (FT 4);
  mkF "avail_size" 4 false (FT 4);
  mkF "reclaim_size" 4 false (FT 4);
  mkF "avail_objects" 2 false (FT 2);
  mkF "reclaim_objects" 2 false (FT 2)].
(** src/wh_message_nvm.c 133-142; wolfhsm/wh_message_nvm.h 152. *)
Definition m_Nvm_GetMetadataRequest : mdef := mkMsg "whMessageNvm_GetMetadataRequest" [
  mkF "id" 2 false (FT 2)].
(** src/wh_message_nvm.c 144-160; wolfhsm/wh_message_nvm.h 161. *)
Definition m_Nvm_GetMetadataResponse : mdef := mkMsg "whMessageNvm_GetMetadataResponse" [
  mkF "rc" 4 false (FT 4);
  mkF "id" 2 false (FT 2);
  mkF "access" 2 false (FT 2);
  mkF "flags" 2 false (FT 2);
  mkF "len" 2 false (FT 2);
  mkF "label" 1 false FCopy].
(** src/wh_message_nvm.c 164-179; wolfhsm/wh_message_nvm.h 113. *)
Definition m_Nvm_AddObjectRequest : mdef := mkMsg "whMessageNvm_AddObjectRequest" [
  mkF "id" 2 false (FT 2);
  mkF "access" 2 false (FT 2);
  mkF "flags" 2 false (FT 2);
  mkF "len" 2 false (FT 2);
  mkF "label" 1 false FCopy].
(** src/wh_message_nvm.c 181-194; wolfhsm/wh_message_nvm.h 175. *)
Definition m_Nvm_DestroyObjectsRequest : mdef := mkMsg "whMessageNvm_DestroyObjectsRequest" [
  mkF "list_count" 2 false (FT 2);
  mkF "list" 2 false (FT 2)].
(** src/wh_message_nvm.c 196-207; wolfhsm/wh_message_nvm.h 188. *)
Definition m_Nvm_ReadRequest : mdef := mkMsg "whMessageNvm_ReadRequest" [
  mkF "id" 2 false (FT 2);
  mkF "offset" 2 false (FT 2);
  mkF "data_len" 2 false (FT 2)].
(** src/wh_message_nvm.c 209-218; wolfhsm/wh_message_nvm.h 199. *)
Definition m_Nvm_ReadResponse : mdef := mkMsg "whMessageNvm_ReadResponse" [
  mkF "rc" 4 false (FT 4)].
(** src/wh_message_nvm.c 222-233; wolfhsm/wh_message_nvm.h 211. *)
Definition m_Nvm_AddObjectDmaRequest : mdef := mkMsg "whMessageNvm_AddObjectDmaRequest" [
  mkF "metadata_hostaddr" 8 false (FT 8);
  mkF "data_hostaddr" 8 false (FT 8);
  mkF "data_len" 2 false (FT 2);
  mkF "WH_PAD" 1 true FNone].
(** src/wh_message_nvm.c 235-247; wolfhsm/wh_message_nvm.h 226. *)
Definition m_Nvm_ReadDmaRequest : mdef := mkMsg "whMessageNvm_ReadDmaRequest" [
  mkF "data_hostaddr" 8 false (FT 8);
  mkF "id" 2 false (FT 2);
  mkF "offset" 2 false (FT 2);
  mkF "data_len" 2 false (FT 2);
  mkF "WH_PAD" 1 true FNone].
(** src/wh_message_she.c 37-50; wolfhsm/wh_message_she.h 39. *)
Definition m_She_SetUidRequest : mdef := mkMsg "whMessageShe_SetUidRequest" [
  mkF "uid" 1 false FCopy;
  mkF "WH_PAD" 1 true FNone].
(** src/wh_message_she.c 53-62; wolfhsm/wh_message_she.h 45. *)
Definition m_She_SetUidResponse : mdef := mkMsg "whMessageShe_SetUidResponse" [
  mkF "rc" 4 false (FT 4);
  mkF "WH_PAD" 1 true FNone].
(** src/wh_message_she.c 65-74; wolfhsm/wh_message_she.h 60. *)
Definition m_She_SecureBootInitRequest : mdef := mkMsg "whMessageShe_SecureBootInitRequest" [
  mkF "sz" 4 false (FT 4);
  mkF "WH_PAD" 1 true FNone].
(** src/wh_message_she.c 76-86; wolfhsm/wh_message_she.h 66. *)
Definition m_She_SecureBootInitResponse : mdef := mkMsg "whMessageShe_SecureBootInitResponse" [
  mkF "rc" 4 false (FT 4);
  mkF "status" 4 false (FT 4)].
(** src/wh_message_she.c 89-98; wolfhsm/wh_message_she.h 81. *)
Definition m_She_SecureBootUpdateRequest : mdef := mkMsg "whMessageShe_SecureBootUpdateRequest" [
  mkF "sz" 4 false (FT 4);
  mkF "WH_PAD" 1 true FNone].
(** src/wh_message_she.c 100-110; wolfhsm/wh_message_she.h 90. *)
Definition m_She_SecureBootUpdateResponse : mdef := mkMsg "whMessageShe_SecureBootUpdateResponse" [
  mkF "rc" 4 false (FT 4);
  mkF "status" 4 false (FT 4)].
(** src/wh_message_she.c 113-123; wolfhsm/wh_message_she.h 105. *)
Definition m_She_SecureBootFinishResponse : mdef := mkMsg "whMessageShe_SecureBootFinishResponse" [
  mkF "rc" 4 false (FT 4);
  mkF "status" 4 false (FT 4)].
(** src/wh_message_she.c 126-136; wolfhsm/wh_message_she.h 116. *)
Definition m_She_GetStatusResponse : mdef := mkMsg "whMessageShe_GetStatusResponse" [
  mkF "rc" 4 false (FT 4);
  mkF "sreg" 1 false FCopy;
  mkF "WH_PAD" 1 true FNone].
(** src/wh_message_she.c 139-154; wolfhsm/wh_message_she.h 128. *)
Definition m_She_LoadKeyRequest : mdef := mkMsg "whMessageShe_LoadKeyRequest" [
  mkF "messageOne" 1 false FCopy;
  mkF "messageTwo" 1 false FCopy;
  mkF "messageThree" 1 false FCopy].
(** src/wh_message_she.c 156-169; wolfhsm/wh_message_she.h 135. *)
Definition m_She_LoadKeyResponse : mdef := mkMsg "whMessageShe_LoadKeyResponse" [
  mkF "rc" 4 false (FT 4);
  mkF "messageFour" 1 false FCopy;
  mkF "messageFive" 1 false FCopy].
(** src/wh_message_she.c 172-185; wolfhsm/wh_message_she.h 151. *)
Definition m_She_LoadPlainKeyRequest : mdef := mkMsg "whMessageShe_LoadPlainKeyRequest" [
  mkF "key" 1 false FCopy].
(** src/wh_message_she.c 187-196; wolfhsm/wh_message_she.h 156. *)
Definition m_She_LoadPlainKeyResponse : mdef := mkMsg "whMessageShe_LoadPlainKeyResponse" [
  mkF "rc" 4 false (FT 4)].
(** src/wh_message_she.c 199-215; wolfhsm/wh_message_she.h 170. *)
Definition m_She_ExportRamKeyResponse : mdef := mkMsg "whMessageShe_ExportRamKeyResponse" [
  mkF "rc" 4 false (FT 4);
  mkF "messageOne" 1 false FCopy;
  mkF "messageTwo" 1 false FCopy;
  mkF "messageThree" 1 false FCopy;
  mkF "messageFour" 1 false FCopy;
  mkF "messageFive" 1 false FCopy].
(** src/wh_message_she.c 218-228; wolfhsm/wh_message_she.h 185. *)
Definition m_She_InitRngResponse : mdef := mkMsg "whMessageShe_InitRngResponse" [
  mkF "rc" 4 false (FT 4);
  mkF "status" 4 false (FT 4)].
(** src/wh_message_she.c 231-243; wolfhsm/wh_message_she.h 196. *)
Definition m_She_RndResponse : mdef := mkMsg "whMessageShe_RndResponse" [
  mkF "rc" 4 false (FT 4);
  mkF "rnd" 1 false FCopy].
(** src/wh_message_she.c 246-259; wolfhsm/wh_message_she.h 207. *)
Definition m_She_ExtendSeedRequest : mdef := mkMsg "whMessageShe_ExtendSeedRequest" [
  mkF "entropy" 1 false FCopy].
(** src/wh_message_she.c 261-271; wolfhsm/wh_message_she.h 212. *)
Definition m_She_ExtendSeedResponse : mdef := mkMsg "whMessageShe_ExtendSeedResponse" [
  mkF "rc" 4 false (FT 4);
  mkF "status" 4 false (FT 4)].
(** src/wh_message_she.c 274-284; wolfhsm/wh_message_she.h 227. *)
Definition m_She_EncEcbRequest : mdef := mkMsg "whMessageShe_EncEcbRequest" [
  mkF "sz" 4 false (FT 4);
  mkF "keyId" 1 false FCopy;
  mkF "WH_PAD" 1 true FNone].
(** src/wh_message_she.c 286-296; wolfhsm/wh_message_she.h 237. *)
Definition m_She_EncEcbResponse : mdef := mkMsg "whMessageShe_EncEcbResponse" [
  mkF "rc" 4 false (FT 4);
  mkF "sz" 4 false (FT 4)].
(** src/wh_message_she.c 299-312; wolfhsm/wh_message_she.h 255. *)
Definition m_She_EncCbcRequest : mdef := mkMsg "whMessageShe_EncCbcRequest" [
  mkF "sz" 4 false (FT 4);
  mkF "keyId" 1 false FCopy;
  mkF "WH_PAD" 1 true FNone;
  mkF "iv" 1 false FCopy].
(** src/wh_message_she.c 314-324; wolfhsm/wh_message_she.h 266. *)
Definition m_She_EncCbcResponse : mdef := mkMsg "whMessageShe_EncCbcResponse" [
  mkF "rc" 4 false (FT 4);
  mkF "sz" 4 false (FT 4)].
(** src/wh_message_she.c 327-337; wolfhsm/wh_message_she.h 284. *)
Definition m_She_DecEcbRequest : mdef := mkMsg "whMessageShe_DecEcbRequest" [
  mkF "sz" 4 false (FT 4);
  mkF "keyId" 1 false FCopy;
  mkF "WH_PAD" 1 true FNone].
(** src/wh_message_she.c 339-349; wolfhsm/wh_message_she.h 294. *)
Definition m_She_DecEcbResponse : mdef := mkMsg "whMessageShe_DecEcbResponse" [
  mkF "rc" 4 false (FT 4);
  mkF "sz" 4 false (FT 4)].
(** src/wh_message_she.c 352-365; wolfhsm/wh_message_she.h 312. *)
Definition m_She_DecCbcRequest : mdef := mkMsg "whMessageShe_DecCbcRequest" [
  mkF "sz" 4 false (FT 4);
  mkF "keyId" 1 false FCopy;
  mkF "WH_PAD" 1 true FNone;
  mkF "iv" 1 false FCopy].
(** src/wh_message_she.c 367-377; wolfhsm/wh_message_she.h 323. *)
Definition m_She_DecCbcResponse : mdef := mkMsg "whMessageShe_DecCbcResponse" [
  mkF "rc" 4 false (FT 4);
  mkF "sz" 4 false (FT 4)].
(** src/wh_message_she.c 380-390; wolfhsm/wh_message_she.h 341. *)
Definition m_She_GenMacRequest : mdef := mkMsg "whMessageShe_GenMacRequest" [
  mkF "keyId" 4 false (FT 4);
  mkF "sz" 4 false (FT 4)].
(** src/wh_message_she.c 392-404; wolfhsm/wh_message_she.h 350. *)
Definition m_She_GenMacResponse : mdef := mkMsg "whMessageShe_GenMacResponse" [
  mkF "rc" 4 false (FT 4);
  mkF "mac" 1 false FCopy].
(** src/wh_message_she.c 407-418; wolfhsm/wh_message_she.h 365. *)
Definition m_She_VerifyMacRequest : mdef := mkMsg "whMessageShe_VerifyMacRequest" [
  mkF "keyId" 4 false (FT 4);
  mkF "messageLen" 4 false (FT 4);
  mkF "macLen" 4 false (FT 4);
  mkF "WH_PAD" 1 true FNone].
(** src/wh_message_she.c 420-430; wolfhsm/wh_message_she.h 377. *)
Definition m_She_VerifyMacResponse : mdef := mkMsg "whMessageShe_VerifyMacResponse" [
  mkF "rc" 4 false (FT 4);
  mkF "status" 1 false FCopy;
  mkF "WH_PAD" 1 true FNone].

Definition msg_table : list mdef := [
  m_Auth_SimpleResponse;
  m_Auth_LoginRequest;
  m_Auth_LoginResponse;
  m_Auth_LogoutRequest;
  m_Auth_UserAddRequest;
  m_Auth_UserAddResponse;
  m_Auth_UserDeleteRequest;
  m_Auth_UserGetRequest;
  m_Auth_UserGetResponse;
  m_Auth_UserSetPermissionsRequest;
  m_Auth_UserSetCredentialsRequest;
  m_Cert_SimpleResponse;
  m_Cert_SetEnabledRequest;
  m_Cert_AddTrustedRequest;
  m_Cert_EraseTrustedRequest;
  m_Cert_ReadTrustedRequest;
  m_Cert_ReadTrustedResponse;
  m_Cert_VerifyRequest;
  m_Cert_VerifyResponse;
  m_Cert_VerifyMultiRootRequest;
  m_Cert_AddTrustedDmaRequest;
  m_Cert_ReadTrustedDmaRequest;
  m_Cert_VerifyDmaRequest;
  m_Cert_VerifyDmaResponse;
  m_Cert_VerifyMultiRootDmaRequest;
  m_Cert_VerifyAcertRequest;
  m_Comm_InitRequest;
  m_Comm_InitResponse;
  m_Comm_InfoResponse;
  m_Counter_InitRequest;
  m_Counter_InitResponse;
  m_Counter_IncrementRequest;
  m_Counter_IncrementResponse;
  m_Counter_ReadRequest;
  m_Counter_ReadResponse;
  m_Counter_DestroyRequest;
  m_Counter_DestroyResponse;
  m_Crypto_GenericRequestHeader;
  m_Crypto_GenericResponseHeader;
  m_Crypto_RngRequest;
  m_Crypto_RngResponse;
  m_Crypto_AesCtrRequest;
  m_Crypto_AesCtrResponse;
  m_Crypto_AesEcbRequest;
  m_Crypto_AesEcbResponse;
  m_Crypto_AesCbcRequest;
  m_Crypto_AesCbcResponse;
  m_Crypto_AesGcmRequest;
  m_Crypto_AesGcmResponse;
  m_Crypto_RsaKeyGenRequest;
  m_Crypto_RsaKeyGenResponse;
  m_Crypto_RsaRequest;
  m_Crypto_RsaResponse;
  m_Crypto_RsaGetSizeRequest;
  m_Crypto_RsaGetSizeResponse;
  m_Crypto_HkdfRequest;
  m_Crypto_HkdfResponse;
  m_Crypto_CmacKdfRequest;
  m_Crypto_CmacKdfResponse;
  m_Crypto_EccKeyGenRequest;
  m_Crypto_EccKeyGenResponse;
  m_Crypto_EcdhRequest;
  m_Crypto_EcdhResponse;
  m_Crypto_EccSignRequest;
  m_Crypto_EccSignResponse;
  m_Crypto_EccVerifyRequest;
  m_Crypto_EccVerifyResponse;
  m_Crypto_EccMakePubRequest;
  m_Crypto_EccMakePubResponse;
  m_Crypto_EccCheckRequest;
  m_Crypto_EccCheckResponse;
  m_Crypto_Curve25519KeyGenRequest;
  m_Crypto_Curve25519KeyGenResponse;
  m_Crypto_Curve25519Request;
  m_Crypto_Curve25519Response;
  m_Crypto_Ed25519KeyGenRequest;
  m_Crypto_Ed25519KeyGenResponse;
  m_Crypto_Ed25519SignRequest;
  m_Crypto_Ed25519SignResponse;
  m_Crypto_Ed25519VerifyRequest;
  m_Crypto_Ed25519VerifyResponse;
  m_Crypto_Sha256Request;
  m_Crypto_Sha512Request;
  m_Crypto_Sha2Response;
  m_Crypto_Sha3State;
  m_Crypto_Sha3Request;
  m_Crypto_Sha3Response;
  m_Crypto_CmacAesState;
  m_Crypto_CmacAesRequest;
  m_Crypto_CmacAesResponse;
  m_Crypto_MlDsaKeyGenRequest;
  m_Crypto_MlDsaKeyGenResponse;
  m_Crypto_MlDsaSignRequest;
  m_Crypto_MlDsaSignResponse;
  m_Crypto_MlDsaVerifyRequest;
  m_Crypto_MlDsaVerifyResponse;
  m_Crypto_MlKemKeyGenRequest;
  m_Crypto_MlKemKeyGenResponse;
  m_Crypto_MlKemEncapsRequest;
  m_Crypto_MlKemEncapsResponse;
  m_Crypto_MlKemDecapsRequest;
  m_Crypto_MlKemDecapsResponse;
  m_Crypto_DmaBuffer;
  m_Crypto_DmaAddrStatus;
  m_Crypto_Sha256DmaRequest;
  m_Crypto_Sha512DmaRequest;
  m_Crypto_Sha2DmaResponse;
  m_Crypto_Sha3DmaRequest;
  m_Crypto_Sha3DmaResponse;
  m_Crypto_CmacAesDmaRequest;
  m_Crypto_CmacAesDmaResponse;
  m_Crypto_MlDsaKeyGenDmaRequest;
  m_Crypto_MlDsaKeyGenDmaResponse;
  m_Crypto_MlDsaSignDmaRequest;
  m_Crypto_MlDsaSignDmaResponse;
  m_Crypto_MlDsaVerifyDmaRequest;
  m_Crypto_MlDsaVerifyDmaResponse;
  m_Crypto_MlKemKeyGenDmaRequest;
  m_Crypto_MlKemKeyGenDmaResponse;
  m_Crypto_MlKemEncapsDmaRequest;
  m_Crypto_MlKemEncapsDmaResponse;
  m_Crypto_MlKemDecapsDmaRequest;
  m_Crypto_MlKemDecapsDmaResponse;
  m_Crypto_PqcStatefulSigKeyGenDmaRequest;
  m_Crypto_PqcStatefulSigKeyGenDmaResponse;
  m_Crypto_PqcStatefulSigSignDmaRequest;
  m_Crypto_PqcStatefulSigSignDmaResponse;
  m_Crypto_PqcStatefulSigVerifyDmaRequest;
  m_Crypto_PqcStatefulSigVerifyDmaResponse;
  m_Crypto_PqcStatefulSigSigsLeftDmaRequest;
  m_Crypto_PqcStatefulSigSigsLeftDmaResponse;
  m_Crypto_Ed25519SignDmaRequest;
  m_Crypto_Ed25519SignDmaResponse;
  m_Crypto_Ed25519VerifyDmaRequest;
  m_Crypto_Ed25519VerifyDmaResponse;
  m_Crypto_AesEcbDmaRequest;
  m_Crypto_AesEcbDmaResponse;
  m_Crypto_AesCbcDmaRequest;
  m_Crypto_AesCbcDmaResponse;
  m_Crypto_AesCtrDmaRequest;
  m_Crypto_AesCtrDmaResponse;
  m_Crypto_AesGcmDmaRequest;
  m_Crypto_AesGcmDmaResponse;
  m_Crypto_RngDmaRequest;
  m_Crypto_RngDmaResponse;
  m_Keystore_CacheRequest;
  m_Keystore_CacheResponse;
  m_Keystore_CacheRandomRequest;
  m_Keystore_CacheRandomResponse;
  m_Keystore_EvictRequest;
  m_Keystore_EvictResponse;
  m_Keystore_CommitRequest;
  m_Keystore_CommitResponse;
  m_Keystore_ExportRequest;
  m_Keystore_ExportResponse;
  m_Keystore_ExportPublicRequest;
  m_Keystore_ExportPublicResponse;
  m_Keystore_EraseRequest;
  m_Keystore_EraseResponse;
  m_Keystore_RevokeRequest;
  m_Keystore_RevokeResponse;
  m_Keystore_CacheDmaRequest;
  m_Keystore_CacheDmaResponse;
  m_Keystore_ExportDmaRequest;
  m_Keystore_ExportDmaResponse;
  m_Keystore_ExportPublicDmaRequest;
  m_Keystore_ExportPublicDmaResponse;
  m_Keystore_KeyWrapRequest;
  m_Keystore_KeyWrapResponse;
  m_Keystore_KeyWrapExportRequest;
  m_Keystore_KeyWrapExportResponse;
  m_Keystore_KeyUnwrapAndExportRequest;
  m_Keystore_KeyUnwrapAndExportResponse;
  m_Keystore_KeyUnwrapAndCacheRequest;
  m_Keystore_KeyUnwrapAndCacheResponse;
  m_Keystore_DataWrapRequest;
  m_Keystore_DataWrapResponse;
  m_Keystore_DataUnwrapRequest;
  m_Keystore_DataUnwrapResponse;
  m_Nvm_Metadata;
  m_Nvm_SimpleResponse;
  m_Nvm_InitRequest;
  m_Nvm_InitResponse;
  m_Nvm_ListRequest;
  m_Nvm_ListResponse;
  m_Nvm_GetAvailableResponse;
  m_Nvm_GetMetadataRequest;
  m_Nvm_GetMetadataResponse;
  m_Nvm_AddObjectRequest;
  m_Nvm_DestroyObjectsRequest;
  m_Nvm_ReadRequest;
  m_Nvm_ReadResponse;
  m_Nvm_AddObjectDmaRequest;
  m_Nvm_ReadDmaRequest;
  m_She_SetUidRequest;
  m_She_SetUidResponse;
  m_She_SecureBootInitRequest;
  m_She_SecureBootInitResponse;
  m_She_SecureBootUpdateRequest;
  m_She_SecureBootUpdateResponse;
  m_She_SecureBootFinishResponse;
  m_She_GetStatusResponse;
  m_She_LoadKeyRequest;
  m_She_LoadKeyResponse;
  m_She_LoadPlainKeyRequest;
  m_She_LoadPlainKeyResponse;
  m_She_ExportRamKeyResponse;
  m_She_InitRngResponse;
  m_She_RndResponse;
  m_She_ExtendSeedRequest;
  m_She_ExtendSeedResponse;
  m_She_EncEcbRequest;
  m_She_EncEcbResponse;
  m_She_EncCbcRequest;
  m_She_EncCbcResponse;
  m_She_DecEcbRequest;
  m_She_DecEcbResponse;
  m_She_DecCbcRequest;
  m_She_DecCbcResponse;
  m_She_GenMacRequest;
  m_She_GenMacResponse;
  m_She_VerifyMacRequest;
  m_She_VerifyMacResponse].
