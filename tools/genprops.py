#!/usr/bin/env python3
# Writes properties.jsonl. Kept in the repository so the list has one source.
import json
P=[]
def p(title,statement,quantifier,why,anchors):
    P.append(dict(id="C%02d"%(len(P)+1),title=title,statement=statement,quantifier=quantifier,why_tests_cant=why,anchors=anchors))
p("Flash NVM behaves as a map",
  "Every sequence of NVM add/destroy/read/get-metadata calls on the flash backend returns what an abstract map from object id to (metadata, bytes) would return: the last successful add of an id wins, a destroyed id is not found, and a read returns exactly the stored bytes of the requested window.",
  "all call sequences, all object contents and lengths, all directory sizes and partition sizes",
  "The space of histories and of directory layouts (superseded, reclaimed and live entries in any order) is infinite; a test only follows a few.",
  ["src/wh_nvm_flash.c: wh_NvmFlash_AddObject, wh_NvmFlash_DestroyObjects, wh_NvmFlash_Read, wh_NvmFlash_GetMetadata","src/wh_nvm.c"])
p("Adding an object is atomic under power loss",
  "If power is lost at any point while an object is being added, then after the next initialisation the store contains either exactly the old contents or exactly the old contents with that object replaced/added, never a torn object and never a loss of another object.",
  "every crash point including inside a multi-unit flash program (any subset of the units written), every prior store and every object",
  "The crash points times torn subsets times prior states cannot be enumerated by tests.",
  ["src/wh_nvm_flash.c: nfObject_Program, nfObject_ProgramBegin, nfObject_ProgramFinish, nfMemState_Read, nfMemDirectory_Parse, wh_NvmFlash_Init"])
p("Destroying and compaction are atomic under power loss",
  "If power is lost at any point during destroy-objects (including the compaction that it performs and the erase of the retired half), then after the next initialisation the store holds either all the old objects or exactly the old objects without the listed ids.",
  "every crash point, torn program or torn erase, every id list, every prior store",
  "Same as for add: the intermediate flash images are too many to enumerate and depend on the copied contents.",
  ["src/wh_nvm_flash.c: wh_NvmFlash_DestroyObjects, nfObject_Copy, nfPartition_ProgramEpoch, wh_NvmFlash_Init"])
p("Durability over arbitrary histories of operations and crashes",
  "Starting from blank flash, after any interleaving of completed operations, crashed operations, reboots and repeated crashes during recovery, the visible store equals the result of the completed operations plus, for each crashed operation, either all or nothing of it.",
  "all finite histories of operations and crashes, unbounded length",
  "Requires an invariant preserved by every step; tests only check single crashes from fixed states.",
  ["src/wh_nvm_flash.c","src/wh_nvm.c"])
p("Refused NVM operations change nothing",
  "An NVM add, destroy or read that is rejected for bad arguments or for lack of space leaves every object, its metadata and the reported free space unchanged.",
  "all states and all arguments",
  "There are as many rejected calls as states and arguments.",
  ["src/wh_nvm_flash.c: wh_NvmFlash_AddObject","src/wh_nvm.c: wh_Nvm_AddObjectWithReclaim"])
p("Free-space reporting is exact and reclaim is complete",
  "The reported available bytes and objects are exactly what the next add may use, and add-with-reclaim refuses an object only when the live objects together with the new one cannot fit in a compacted partition.",
  "all reachable stores and all object sizes",
  "Needs the space accounting invariant over all histories.",
  ["src/wh_nvm_flash.c: wh_NvmFlash_GetAvailable, nfMemDirectory_Parse","src/wh_nvm.c: wh_Nvm_AddObjectWithReclaim"])
p("Listing enumerates every object exactly once",
  "Iterating list from the start id and following the returned ids visits every stored object once and then terminates; the returned counts are the numbers of objects still to visit.",
  "all reachable stores",
  "Depends on the order and number of superseded entries in the directory.",
  ["src/wh_nvm_flash.c: wh_NvmFlash_List"])
p("NVM never touches flash outside its partitions",
  "No NVM operation programs, erases or reads a flash unit outside the two configured partitions, programs a unit that is not blank, or reads outside the bytes of the object requested.",
  "all histories, all argument values including extreme offsets and lengths",
  "A bounds claim over all offsets and lengths, including values that make the sums overflow.",
  ["src/wh_nvm_flash.c: nfObject_ReadDataBytes, nfPartition_CheckDataRange","src/wh_flash_unit.c","src/wh_flash_ramsim.c"])
p("Unit flash layer stores bytes faithfully",
  "Programming a byte buffer through the unit layer and reading any byte window back returns those bytes, for every alignment of offset and length, and reports an error rather than success when the flash was not blank or does not verify.",
  "all byte strings, offsets, lengths and flash contents",
  "Alignment cases times contents are unbounded.",
  ["src/wh_flash_unit.c: wh_FlashUnit_ProgramBytes, wh_FlashUnit_ReadBytes, wh_FlashUnit_Program"])
p("Clients cannot modify or remove protected NVM objects",
  "Through the client NVM requests an object carrying the non-modifiable flag keeps its metadata and bytes and stays present for ever.",
  "all sequences of client NVM requests by any number of clients",
  "A forever statement over all request sequences.",
  ["src/wh_nvm.c: wh_Nvm_CheckPolicy, wh_Nvm_AddObjectChecked, wh_Nvm_DestroyObjectsChecked","src/wh_server_nvm.c: wh_Server_HandleNvmRequest"])
p("Non-exportable NVM bytes never reach a client read",
  "No client NVM read (plain or DMA) returns data of an object while that object carries the non-exportable flag or the trusted flag.",
  "all request sequences and read windows",
  "All states and all windows.",
  ["src/wh_nvm.c: wh_Nvm_ReadChecked","src/wh_server_nvm.c"])
p("Clients can never create or alter a trusted object",
  "No sequence of client NVM requests makes an object with the trusted (server-only) flag appear, disappear or change.",
  "all sequences of client requests with arbitrary metadata",
  "All sequences.",
  ["src/wh_nvm.c: wh_Nvm_AddObjectChecked","src/wh_server_keystore.c: _SanitizeClientFlags"])
p("Non-destroyable objects cannot be removed by clients",
  "An object carrying the non-destroyable flag stays present under any sequence of client NVM requests.",
  "all sequences of client NVM requests",
  "All sequences, including overwrite followed by destroy.",
  ["src/wh_nvm.c: wh_Nvm_CheckPolicy"])
p("Key id translation is faithful",
  "Translating a client key id to the server form and back returns the same id and flags, two distinct client ids never collide on the server except through documented flag precedence, and ids of two different clients are different unless global.",
  "all 16-bit client ids, all key types, all client numbers",
  "Holds for every combination; the non-injective corners are easy to miss in samples.",
  ["src/wh_keyid.c: wh_KeyId_TranslateFromClient, wh_KeyId_TranslateToClient","wolfhsm/wh_keyid.h"])
p("A response is delivered only to the request that caused it",
  "The client communication layer has at most one outstanding request, and a successfully received response carries the sequence number of that outstanding request.",
  "all interleavings of send, receive, abort, timeouts, and arbitrary packets on the wire",
  "All interleavings and packet contents.",
  ["src/wh_comm.c: wh_CommClient_SendRequest, wh_CommClient_RecvResponse, wh_CommClient_AbortPending"])
p("Shared-memory transport delivers every message exactly once",
  "Over the memory transport, for every interleaving of client and server polling, the server receives each request once, in order, with the bytes sent, and the client likewise each response.",
  "all schedules, all message contents, unbounded numbers of messages (16-bit notify counters wrap)",
  "All schedules; wrap-around of the notify counters.",
  ["src/wh_transport_mem.c"])
p("Malformed packets are rejected without harm",
  "A packet shorter than the header, longer than the receive limit, or with a wrong magic is never delivered as a message, never overruns the caller's buffer, and the server keeps serving later requests.",
  "all packets, lengths and caller buffer sizes",
  "All byte strings.",
  ["src/wh_comm.c: wh_CommServer_RecvRequest, wh_CommClient_RecvResponse"])
p("Byte-order translation round-trips",
  "Header and message translation selected by the magic is an involution, is the identity for a native peer, and two peers of opposite byte order agree on every field value.",
  "all field values and both byte orders",
  "All values.",
  ["src/wh_comm.c: wh_Translate16, wh_Translate32, wh_Translate64","src/wh_message_nvm.c","src/wh_message_keystore.c","src/wh_utils.c"])
p("Counters are monotone and saturate",
  "Once initialised a non-volatile counter never decreases through increment and read; an increment returns the old value plus one, and at the maximum it stays at the maximum; the value survives power loss, with an interrupted increment counted once or not at all.",
  "all sequences of counter requests, crash points and values",
  "All histories and values including the wrap.",
  ["src/wh_server_counter.c: wh_Server_HandleCounter"])
p("Counters of different clients and ids are independent",
  "Counter requests by one client on one id never change another client's counter or another id's counter or any key object.",
  "all request sequences, all client numbers and counter ids",
  "All pairs of ids, including ids that are equal modulo 256.",
  ["src/wh_server_counter.c"])
p("Non-exportable keys never leave by export",
  "A key export request (plain or DMA) returns key bytes only when the key's current flags have neither non-exportable nor trusted set.",
  "all keystore states (cached, committed, both) and requests",
  "All combinations of cache and NVM state.",
  ["src/wh_server_keystore.c: _KeystoreCheckPolicy, wh_Server_KeystoreReadKeyChecked"])
p("Caching a key never loses another uncommitted key",
  "Caching, generating or freshening a key never discards a different key that has not been committed to NVM; when there is no free or committed slot the request fails.",
  "all cache states and request sequences",
  "All cache occupancy patterns and orders.",
  ["src/wh_server_keystore.c: _GetKeyCacheSlot, wh_Server_KeystoreGetCacheSlot"])
p("A committed key survives reset",
  "After a successful commit, the key with its metadata is available with the same bytes after any number of cache evictions and resets, until it is erased or overwritten by a request for that id.",
  "all histories of keystore requests and resets",
  "All histories.",
  ["src/wh_server_keystore.c: wh_Server_KeystoreCommitKey, wh_Server_KeystoreFreshenKey"])
p("Reading a key returns what was cached last",
  "After a key was cached successfully, a read, use or export of that id by the same client returns those bytes and metadata until a request by that client changes that id or the server resets.",
  "all interleavings with requests on other ids and by other clients",
  "All interleavings and evictions.",
  ["src/wh_server_keystore.c: wh_Server_KeystoreReadKey, wh_Server_KeystoreFreshenKey, _KeystoreCacheKey"])
p("Erase removes the key everywhere",
  "After a successful erase the key is in neither cache nor NVM, and no other key changed.",
  "all keystore states",
  "All states.",
  ["src/wh_server_keystore.c: wh_Server_KeystoreEraseKey, wh_Server_KeystoreEraseKeyChecked"])
p("Allocated key ids are fresh",
  "A key id chosen by the server is in the requester's namespace and collides with no cached and no stored key, and allocation fails only when all 255 ids of that namespace are in use.",
  "all cache and NVM states",
  "All states.",
  ["src/wh_server_keystore.c: wh_Server_KeystoreGetUniqueId"])
p("Clients are isolated from each other's keys",
  "Keystore requests by one client never read, change or remove a non-global key of another client.",
  "all interleavings of requests of any clients",
  "All interleavings and ids.",
  ["src/wh_server_keystore.c: wh_Server_HandleKeyRequest","src/wh_keyid.c"])
p("Usage flags are enforced",
  "A key is used for an operation only if all flags required by that operation are set in its metadata.",
  "all flag words and required-usage words",
  "All 2^16 x 2^16 combinations.",
  ["src/wh_server_keystore.c: wh_Server_KeystoreEnforceKeyUsage, wh_Server_KeystoreFindEnforceKeyUsage"])
p("Revocation is permanent",
  "After a successful revoke of a key, no later request makes the key usable for any operation again, and this survives eviction and reset when the key was stored in NVM.",
  "all request sequences after the revoke, all resets",
  "All sequences.",
  ["src/wh_server_keystore.c: wh_Server_KeystoreRevokeKey, _revokeKey, _isKeyRevoked"])
p("Non-modifiable keys keep their value",
  "A cached or stored key with the non-modifiable flag keeps its bytes under every client keystore request.",
  "all request sequences",
  "All sequences, including combinations of cache and NVM copies under one id.",
  ["src/wh_server_keystore.c: _KeystoreCheckPolicy, wh_Server_KeystoreCommitKeyChecked"])
p("Key wrap round-trips and binds metadata",
  "Unwrapping a blob produced by wrap under the same key-encryption key returns the wrapped bytes and metadata; a blob that authenticates is cached only under its own wrapped id for its own owner, and never with the trusted flag.",
  "all keys, metadata, blobs and clients, for any AEAD meeting its functional contract",
  "All blobs.",
  ["src/wh_server_keystore.c: _AesGcmKeyWrap, _AesGcmKeyUnwrap, _HandleKeyUnwrapAndCacheRequest, _HandleKeyUnwrapAndExportRequest"])
p("Exporting a server key by wrap needs a trusted KEK",
  "A server-held key is wrapped out only when it is exportable, and only under a hardware or trusted key-encryption key.",
  "all states and requests",
  "All combinations.",
  ["src/wh_server_keystore.c: _HandleKeyWrapExportRequest, _KeywrapResolveKek"])
p("Every request is authorised before it is handled",
  "With authentication enabled, a request is dispatched to its handler only if it needs no authentication or the logged-in user's permissions include the request's group and action.",
  "all requests, sessions and permission words",
  "All group/action numbers and permission patterns.",
  ["src/wh_auth.c: wh_Auth_CheckRequestAuthorization","src/wh_server.c: wh_Server_HandleRequestMessage"])
p("No privilege escalation",
  "No sequence of requests by a non-administrator gives any user administrator rights or permissions beyond what an administrator granted.",
  "all request sequences",
  "All sequences.",
  ["src/wh_auth.c: wh_Auth_UserAdd, wh_Auth_UserSetPermissions","src/wh_server_auth.c"])
p("Login succeeds only with the current credential",
  "Login succeeds only for an existing user with the credential that was last set for that user, and at most one session holds a user at a time.",
  "all histories of add, delete, credential change, login, logout",
  "All histories.",
  ["src/wh_auth_base.c: wh_Auth_BaseLogin, wh_Auth_BaseUserSetCredentials, wh_Auth_BaseUserDelete"])
p("The persistent user database survives power loss",
  "After power loss at any point of a user-database update the reloaded database equals the old or the new database.",
  "all crash points between the NVM writes of an update",
  "All crash points and histories.",
  ["src/wh_auth_base.c: PersistIndex, PersistCred, LoadFromNvm"])
p("SHE commands are gated by secure boot state",
  "SHE commands other than the boot and status commands are served only after secure boot succeeded or was not configured.",
  "all command sequences",
  "All sequences.",
  ["src/wh_server_she.c: _ReportInvalidSheState, wh_Server_HandleSheRequest"])
p("SHE secure boot accepts only the matching image",
  "Secure boot reaches the success state only if the MAC computed over size and all image bytes received equals the stored boot MAC, or no boot MAC key is installed.",
  "all images, chunkings and stored MACs",
  "All chunkings.",
  ["src/wh_server_she.c: _SecureBootInit, _SecureBootUpdate, _SecureBootFinish"])
p("SHE key update is authenticated and anti-rollback",
  "A SHE key slot changes by the load-key protocol only if M3 authenticates M1||M2 under the named authorising key, the UID matches or wildcard is allowed, the slot is not write protected, and the counter strictly increases; the slot counter never decreases.",
  "all message triples and slot states",
  "All messages and histories.",
  ["src/wh_server_she.c: _LoadKey"])
p("SHE key flags and counters round-trip",
  "The counter and flags placed in a key update by the client library are the ones the server stores for the slot.",
  "all 28-bit counters and all flag words",
  "All values.",
  ["src/wh_she_crypto.c: wh_She_GenerateLoadableKey","src/wh_she_common.c","src/wh_server_she.c: _PopFlags"])
p("The log ring buffer keeps the newest entries in order",
  "After any number of additions iteration returns the last min(n, capacity) entries in the order they were added.",
  "all entry sequences and capacities",
  "All lengths and capacities, including wrap of the ring.",
  ["src/wh_log_ringbuf.c"])
p("DMA accesses stay inside the allow list",
  "A client address range accepted for DMA lies wholly inside one configured allow-list entry, without wrap of the address space.",
  "all addresses, sizes and allow lists",
  "All 64-bit values.",
  ["src/wh_dma.c: _checkAddrAgainstAllowList","src/wh_server_dma.c"])
p("The certificate verification cache is sound",
  "A chain element is accepted from the cache only if that certificate was verified earlier against roots all of which are in the current request's root set and have not been replaced or erased since.",
  "all histories of verifications, root changes and toggles",
  "All histories.",
  ["src/wh_server_cert.c: wh_Server_CertVerifyCache*"])
p("Image verification reports success only after verification",
  "The image manager reports a zero verification result for an image only if the verify method accepted the image with the configured key and signature.",
  "all images, keys, signatures and methods",
  "All inputs.",
  ["src/wh_server_img_mgr.c: wh_Server_ImgMgrVerifyImg, wh_Server_ImgMgrVerifyAll"])
p("The boot-image header parser stays in bounds",
  "Searching a TLV field in an image header never reads outside the header, terminates, and returns only a field wholly inside it.",
  "all headers, sizes and tags",
  "All byte strings.",
  ["src/wh_server_img_mgr.c: _wolfBootImgFindHeaderField"])
p("TCP framing survives any segmentation",
  "Whatever sizes the reads and writes of the socket have, the messages delivered are the messages sent, in order, unaltered, and a peer that announces an impossible length causes an error, not a buffer overrun.",
  "all segmentations and message sequences",
  "All segmentations.",
  ["port/posix/posix_transport_tcp.c"])
p("The log-structured flash backend is a crash-safe map",
  "The alternative flash-log backend behaves as a map from ids to objects, and after power loss at any point of an update presents the old or the new contents.",
  "all histories and crash points",
  "All histories and crash points.",
  ["src/wh_nvm_flash_log.c"])
p("A one-time signature index is never used twice",
  "For stateful hash-based signature keys (LMS/XMSS), no two signatures returned to a client are made with the same private-key state, whatever failures of storage, evictions and resets happen in between.",
  "all histories of sign, evict, storage failure and reset",
  "All histories.",
  ["src/wh_server_crypto.c: LMS/XMSS signing and write callbacks"])
p("Requests are dispatched to exactly one handler and answered",
  "The server answers every received request with the same kind and sequence number, unknown groups and unregistered custom callbacks give an error response, and a custom callback runs only when registered and invoked.",
  "all requests",
  "All message kinds and contents.",
  ["src/wh_server.c: wh_Server_HandleRequestMessage","src/wh_server_customcb.c"])
p("Lock and timeout primitives are correct",
  "A lock is held by at most one holder and is released only after acquisition; a timeout expires exactly when the configured time has elapsed since it was started and never when the limit is zero.",
  "all call sequences and clock readings",
  "All sequences and times.",
  ["src/wh_lock.c","src/wh_timeout.c","port/posix/posix_lock.c","port/posix/posix_timeout.c"])
p("A response timeout fires",
  "When a response timeout of L is configured and the answer to a request does not come, a receive made at least L after the request went out reports a timeout, and none made earlier does.",
  "all limits, times and sequences of receives",
  "All sequences of receives and clock readings, and all packets that may arrive meanwhile.",
  ["src/wh_comm.c: wh_CommClient_SendRequest, wh_CommClient_RecvResponse","src/wh_timeout.c"])
p("A client can go on after a timeout or an abandoned request",
  "After a request has timed out or was abandoned, the client can send a new request and gets the answer to it.",
  "all histories of requests, timeouts and abandonments",
  "All histories.",
  ["src/wh_comm.c: wh_CommClient_AbortPending","src/wh_transport_mem.c","port/posix/posix_transport_tcp.c"])
p("A failed key request leaves the stored keys unchanged",
  "A key request that answers with an error changes nothing in non-volatile memory, and does not change or remove the key it names.",
  "all requests, states and failures of storage, memory access and random numbers",
  "All states, requests and failure points.",
  ["src/wh_server_keystore.c","src/wh_server_crypto.c"])
p("Permissions arrive as they were sent",
  "The permission words a client sends in an add-user or set-permissions request are the words the server stores, and those returned by a get-user request are the words stored.",
  "all permission words",
  "The space of permission words is too large to enumerate.",
  ["src/wh_message_auth.c: wh_MessageAuth_FlattenPermissions, wh_MessageAuth_UnflattenPermissions"])
p("A credential is changed only by who knows it or by an administrator",
  "A set-credential request succeeds only if the requester is the user concerned or an administrator, and the current credential presented is the one last set for that user; on success the new one replaces it.",
  "all histories and all set-credential requests",
  "All histories and credentials.",
  ["src/wh_auth.c: wh_Auth_UserSetCredentials","src/wh_auth_base.c: wh_Auth_BaseUserSetCredentials","src/wh_server_auth.c"])
p("Users are managed by administrators",
  "A request to delete a user or to set permissions succeeds only for an administrator; logging out, looking up or giving a credential to another user too; a user added by somebody else has a credential and only permissions its creator has. No request changes the session of another connection.",
  "all states and requests",
  "All states of database and sessions.",
  ["src/wh_auth.c","src/wh_auth_base.c"])
p("Only a slot's own key or the master key can replace a SHE key", "The key of a SHE slot is replaced only by a client who knows the current key of that slot or the master key.", "all histories of SHE requests", "All histories and all choices of authorising slot.", ["src/wh_server_she.c: _LoadKey, _LoadPlainKey"])
p("The certificate cache changes no verdict", "A chain that verifies without the cache verifies with it, a disabled cache changes no answer, and a chain that does not verify without the cache does not verify with it.", "all cache contents, chains and root sets", "All cache contents and chains.", ["src/wh_server_cert.c: _verifyChainAgainstCmStore, wh_Server_CertVerifyCache*"])
p("Certificate requests respect object protection", "No certificate or NVM request changes or reads a trusted object; certificate reads return only exportable objects; a non-destroyable object is not removed and a non-modifiable one keeps its contents.", "all histories of certificate and NVM requests", "All histories mixing the two interfaces.", ["src/wh_server_cert.c: wh_Server_CertAddTrusted, wh_Server_CertEraseTrusted, wh_Server_CertReadTrusted, wh_Server_HandleCertRequest"])
p("Hashing through the server gives the digest of the message", "A digest obtained through the client's SHA-2 or SHA-3 functions, split or blocking, inline or DMA, or through wolfCrypt on top of them, is the digest of the concatenation of the accepted updates, however the message is cut, whatever failed in between, and whether the server has the algorithm or not.", "all messages, ways of cutting them, buffer sizes, interleavings of requests and responses, failures", "All cuts against all block boundaries and all failure points.", ["src/wh_client_crypto.c: wh_Client_Sha256*, wh_Client_Sha224*, wh_Client_Sha384*, wh_Client_Sha512*, _Sha3*", "src/wh_server_crypto.c: _HandleSha*", "src/wh_client_cryptocb.c"])
p("Crypto requests stay in the communication buffer", "While a crypto request is served, the server reads only bytes of the request received, writes and lets the crypto library write only inside the communication buffer and its own arrays, answers with a message that fits, and sends no byte that is neither of this request nor written while serving it.", "all buffer sizes, request sizes, request fields and library answers", "All combinations of lengths, 32-bit wrap-around included.", ["src/wh_server_crypto.c: _Handle*, wh_Server_HandleCryptoRequest", "src/wh_comm.c: wh_CommServer_SendResponse"])
p("A derived key is the derivation of its inputs", "A key obtained from the client's HKDF or CMAC key derivation functions, exported or cached on the server, from inputs passed inline or by key id, is the RFC 5869 or SP 800-56C derivation of exactly those inputs and of the length asked for; a derivation that fits the message size is served.", "all inputs, stored keys, output lengths and contents of the communication buffer", "All lengths relative to the layout of the shared request and response buffer; tests use one short output.", ["src/wh_server_crypto.c: _HandleHkdf, _HandleCmacKdf", "src/wh_client_crypto.c: _HkdfMakeKey, _CmacKdfMakeKey"])
p("AES through the server is AES on the caller's bytes", "The outputs of successful AES-CTR, ECB and CBC calls on one object, put together, are the mode's result on their inputs put together, however the message is cut, inline or DMA, with inline or stored keys, and whatever failed in between; encryption followed by decryption gives the message back; GCM gives the library's result on exactly the caller's arguments and no text whose tag was refused; a failed call leaves the object unchanged; every call returns and writes inside its buffers.", "all messages, cuts, ivs, keys, buffer sizes, paths and failures", "All cuts relative to block boundaries and counter carries, all failure points, all 32-bit lengths.", ["src/wh_client_crypto.c: wh_Client_AesCtr*, wh_Client_AesEcb*, wh_Client_AesCbc*, wh_Client_AesGcm*", "src/wh_server_crypto.c: _HandleAesCtr*, _HandleAesEcb*, _HandleAesCbc*, _HandleAesGcm*"])
p("A CMAC from the server is the CMAC of the message", "A MAC obtained through the client's CMAC functions, split or blocking, inline or DMA, with a given or stored key, is the CMAC under that key of the concatenation of the inputs of the successful updates since the last MAC, or of the one message when key, message and MAC are one call, however the message is cut and whatever failed in between; a failed call leaves the stream as it was; a call that fits the message size is served.", "all messages, cuts, keys, tag lengths, buffer sizes, paths and failures", "All cuts relative to block boundaries, all failure points, all lengths relative to the request size.", ["src/wh_client_crypto.c: wh_Client_Cmac*", "src/wh_server_crypto.c: _CmacResolveKey, _HandleCmac, _HandleCmacDma", "src/wh_crypto.c: wh_Crypto_CmacAesSaveStateToMsg, wh_Crypto_CmacAesRestoreStateFromMsg"])
p("A client survives any answer", "Whatever a server answers, a client function stores only inside the buffers its caller gave, uses only bytes of the answer it received, and on success reports a length its caller has room for; an answer that reports success and fits is delivered, byte for byte, where the message layout puts it; an answer that reports an error makes the call fail and hands out nothing; a refused ML-KEM answer leaves no secret behind.", "all client response functions, all answers of any size and content, all buffer sizes, all byte orders, all contents left in the receive buffer", "The server's answer is arbitrary: every length field, every truncation, every stale byte.", ["src/wh_client.c: wh_Client_*Response", "src/wh_client_crypto.c: *Response, _getCryptoResponse, _*MakeKey", "src/wh_client_nvm.c", "src/wh_client_cert.c", "src/wh_client_auth.c", "src/wh_client_keywrap.c", "src/wh_client_she.c", "wolfhsm/wh_message_*.h"])
p("A public-key call uses the caller's key and inputs and leaves no key behind", "A sign, verify, RSA, public-key or KEM call with a key object that names a server key uses that key, within its usage flags, and does not evict it; with a key object that names none, the call uses the caller's key on the caller's inputs and afterwards, whether it succeeded or failed, the server's key store is as it was, a committed cached copy dropped for room aside. An error hands out nothing.", "all calls and arguments of all lengths, all keys, all reachable key store states, all outcomes of serialisation, sending, locking, DMA and the operation itself, all activity of other connections in between", "The key has to be gone after every failure at every step, next to other connections' requests.", ["src/wh_client_crypto.c: wh_Client_EccSign, wh_Client_EccVerify, wh_Client_EccMakePub, wh_Client_EccCheckPubKey, wh_Client_Ed25519Sign, wh_Client_Ed25519Verify, wh_Client_Ed25519SignDma, wh_Client_Ed25519VerifyDma, wh_Client_RsaFunction, wh_Client_RsaGetSize, wh_Client_MlDsaSign, wh_Client_MlDsaVerify, wh_Client_MlDsaSignDma, wh_Client_MlDsaVerifyDma, wh_Client_MlKemEncapsulate, wh_Client_MlKemDecapsulate and their DMA forms", "src/wh_client.c: wh_Client_KeyCache, wh_Client_KeyCacheDma, wh_Client_KeyEvict", "src/wh_server_crypto.c: _Handle*, _CryptoEvictKeyLocked"])
p("A request carries the caller's data, all of it and nothing else", "A client call with data of a length the caller chooses either sends one message that consists of the fixed fields, with the label cut off after 24 bytes and filled up with zeros, followed by the caller's data in the documented order, complete and unchanged; or it returns an error and sends nothing, namely exactly when an argument is not acceptable or the message does not fit; or it has nothing to ask and returns success. It never writes outside the message buffer, and no byte of an earlier message goes out.", "all calls that carry such data, all lengths and contents, NULL or not, all configurations of the message length and all earlier contents of the buffer", "The lengths are free 16- or 32-bit numbers that are added up before the check, and the buffer is reused, so only boundary lengths and particular earlier messages show an error.", ["src/wh_client.c: wh_Client_EchoRequest, wh_Client_KeyCacheRequest_ex, wh_Client_KeyCacheDmaRequest", "src/wh_client_keywrap.c", "src/wh_client_auth.c: wh_Client_AuthLoginRequest, wh_Client_AuthUserAddRequest, wh_Client_AuthUserSetCredentialsRequest", "src/wh_client_cert.c", "src/wh_client_nvm.c: wh_Client_NvmAddObjectRequest", "src/wh_client_she.c: wh_Client_SheEncEcbRequest, wh_Client_SheEncCbcRequest, wh_Client_SheGenerateMacRequest, wh_Client_SheVerifyMacRequest", "src/wh_client_crypto.c: the AES, CMAC, KDF, RSA, ECC, Ed25519, ML-DSA and ML-KEM requests"])
p("The log file gives back the entries that were logged", "After any sequence of log additions, failed additions, clears and restarts on the same file, iterating over the log passes to the callback exactly the entries whose addition returned OK since the file was last emptied, in order, each with its time, level, file, function, line and message unchanged, until the callback stops; an export writes their text, one line per entry. What a message says cannot change or add other entries.", "all histories, all entries, all callbacks, any contents of uninitialised memory", "The text form has separators that names and messages may contain, buffers of several sizes and an uninitialised array; only particular contents show an error.", ["port/posix/posix_log_file.c: posixLogFile_AddEntry, posixLogFile_Iterate, posixLogFile_Export, posixLogFile_Clear", "src/wh_log.c: wh_Log_AddMsg, wh_Log_LevelToString"])
p("Stateful signature keys: the slot says which key signs, and each signature moves it on", "A generated LMS or XMSS key is kept as its parameters, public and private key in the documented layout, in the cache and, when the commit succeeded, in NVM. Each signing request uses the private key the cached copy holds, leaves the next private key in the cache, and hands out the signature exactly when NVM holds the next private key too; so in every history of requests, evictions and restarts the private key behind a later signature follows the one an earlier signature left. Verification, export and the count of signatures left answer for that key. No slot contents lead to an access outside the slot. A client cannot give the server a private key by caching or committing bytes.", "all parameter sets, keys, messages, slot contents, storage failures and histories; all signature libraries that keep the size of a private key", "The layout is parsed again by callbacks with their own offset computation; an error shows only for particular sizes, after a failed write or after a reload.", ["src/wh_crypto.c: wh_Crypto_LmsSerializeKey, wh_Crypto_LmsDeserializeKey, wh_Crypto_XmssSerializeKey, wh_Crypto_XmssDeserializeKey, wh_Crypto_IsStatefulSigPrivBlob", "src/wh_server_crypto.c: _HandleLmsSignDma, _HandleXmssSignDma, _HandleLmsKeyGenDma, _HandleXmssKeyGenDma, _HandleLmsSigsLeftDma, _HandleXmssSigsLeftDma"])
p("NVM kept in a file keeps its promises", "A server whose NVM lives in a file behaves as C01-C05 promise: from a file that does not exist yet, through any history of operations, failing or interrupted writes, interrupted starts and restarts, every answer is the one a map would give, an interrupted operation happened completely or not at all, and starting again always succeeds. Opening the file gives it the configured size, keeps what it held and fills the rest with erased bytes; an attempt that fails does no harm. Reads return exactly the bytes asked for; programming and erasing change exactly the range given, or a beginning of it when the write fails and then say so, and nothing while the device is locked or outside it; verify and blank check answer OK exactly when the bytes agree.", "all configurations, all file contents, all offsets, sizes and data, all points at which a system call stops, all histories of operations, failures, power cuts and restarts", "A test runs a few operations on one file; the claim ranges over every failing system call at every byte and every interleaving of cuts and restarts.", ["port/posix/posix_flash_file.c:posixFlashFile_Init","port/posix/posix_flash_file.c:posixFlashFile_Program","port/posix/posix_flash_file.c:posixFlashFile_Erase","port/posix/posix_flash_file.c:posixFlashFile_Verify","port/posix/posix_flash_file.c:posixFlashFile_BlankCheck","src/wh_nvm_flash.c:wh_NvmFlash_Init"])
p("Processes sharing memory agree on its layout", "Servers and clients that meet through a named shared memory object always agree where requests, responses and DMA data lie: as the configuration of the server that made the object says, without overlap and inside the object. A server takes itself for connected only after a client announced itself on its object; once a client uses an object nobody else finds it; a process in use keeps its view whatever is written over the header; one server and one client that do not fail connect whichever starts first. A DMA request reaches exactly the bytes of the area it names or is refused; a client buffer outside the area is copied in before and out after, and nothing else changes.", "all sets of server and client processes, all configurations, all interleavings, failing calls and deaths of processes; all buffers, lengths and memory contents", "Set-up races depend on which of about thirty accesses to the shared header come first; a test runs one order.", ["port/posix/posix_transport_shm.c:posixTransportShm_ServerInit","port/posix/posix_transport_shm.c:posixTransportShm_ClientInit","port/posix/posix_transport_shm.c:posixTransportShm_SendRequest","port/posix/posix_transport_shm.c:posixTransportShm_RecvRequest","port/posix/posix_transport_shm.c:posixTransportShm_Cleanup","port/posix/posix_transport_shm.c:posixTransportShm_ClientStaticMemDmaCallback","port/posix/posix_transport_shm.c:posixTransportShm_ServerStaticMemDmaCallback"])
p("wolfCrypt calls reach the HSM as they were made", "When an application uses wolfCrypt with the wolfHSM device, each operation wolfHSM offers leads to a client call with the same operation, parameters, keys, input bytes and output room, by DMA or not, and never to buffers larger than the application's; the application is told success exactly if the client call succeeded; it is told to fall back to software only if the client call says that such operations are not done, never because the HSM refused or failed; a second client call is made only then; output lengths are stored exactly after success or when the room did not suffice, as the client call reported them.", "all operations wolfCrypt hands to a callback, all pointers and lengths, all answers of the client calls, DMA preferred or not", "About thirty-five kinds of request with two paths each, times all answers and lengths; tests see a few lengths, and none beyond 16 bits.", ["src/wh_client_cryptocb.c:wh_Client_CryptoCb","src/wh_client_cryptocb.c:wh_Client_CryptoCbStd","src/wh_client_cryptocb.c:wh_Client_CryptoCbDma","src/wh_client_cryptocb.c:_handlePqcSign","src/wh_client_cryptocb.c:_handlePqcStatefulSigSigsLeft","wolfhsm/wh_client_crypto.h"])
p("Client memory opened for DMA is used only while open and closed once", "The server touches client memory given by address only inside a window it opened through the DMA callback for that kind of access and that is still open; every window a request opens is closed, exactly once and also when the request fails, and nothing is closed that was not opened.", "all requests by address, all answers of the DMA callback, all allow lists, all results of every other call, in every combination", "Twenty-odd handlers with up to three windows each and an exit after every call; leaks show only on failing paths and only on platforms whose callback maps memory.", ["src/wh_server_dma.c:wh_Server_DmaProcessClientAddress","src/wh_server_dma.c:whServerDma_CopyFromClient","src/wh_server_dma.c:whServerDma_CopyToClient","src/wh_server_crypto.c:wh_Server_HandleCryptoDmaRequest","src/wh_server_crypto.c:_HandleAesGcmDma","src/wh_server_crypto.c:_HandleMlDsaKeyGenDma","src/wh_server_crypto.c:_HandleLmsVerifyDma","src/wh_server_cert.c:wh_Server_HandleCertRequest","src/wh_server_nvm.c:wh_Server_HandleNvmRequest","src/wh_server_img_mgr.c:wh_Server_ImgMgrVerifyImg"])
p("The client's buffers are open while the server may use them, and closed afterwards", "A buffer the application hands to a client call by address is opened through the client's DMA callback before its address goes to the server, stays open while the client waits for the answer, and is closed exactly once in the same direction and length before the call that ends the request returns; no call closes a buffer that is not open; a call that reports success received the reply to its own request.", "all histories of client calls with buffers (asynchronous pairs, blocking calls, aborts), all answers of the DMA callback, the allow list, the transport and the timer, all arrivals (nothing, wrong sizes, wrong magic, stale and true replies)", "The record of open buffers is a union shared by eight kinds of requests and survives from one call to the next; mistakes show only for particular orders of calls and failures, on platforms whose callback maps or copies memory.", ["src/wh_client_dma.c:wh_Client_DmaProcessClientAddress","src/wh_client_dma.c:wh_Client_DmaAsyncPre","src/wh_client_dma.c:wh_Client_DmaAsyncPost","src/wh_client_crypto.c:wh_Client_RngGenerateDmaRequest","src/wh_client_crypto.c:wh_Client_AesGcmDmaRequest","src/wh_client_crypto.c:wh_Client_CmacDmaUpdateRequest","src/wh_client_crypto.c:wh_Client_Sha256DmaUpdateRequest","src/wh_client_crypto.c:wh_Client_Ed25519SignDma","src/wh_client.c:wh_Client_KeyExportDma","src/wh_client_nvm.c:wh_Client_NvmAddObjectDmaRequest","src/wh_client_cert.c:wh_Client_CertReadTrustedDmaRequest","src/wh_comm.c:wh_CommClient_RecvResponse"])
p("The TrustZone bridge hands each request over once and each answer back once", "Over the non-secure-callable bridge a request reaches the secure server exactly once and unchanged, or the client is told that it was refused; the answer is received whole and once, by the first receive with enough room, and belongs to the last request; neither side is told a size beyond its buffer; a client whose request is over can send the next one.", "all histories of client calls, all requests and rooms, any behaviour of the secure function (client side), any server behind a function that keeps its contract (secure side), all histories of the packet layer above", "The states that matter (an answer fetched late or never, an empty command, a server that is not connected) arise only from particular orders of calls across the two worlds.", ["port/armv8m-tz/wh_transport_nsc.c:wh_TransportNsc_ClientSend","port/armv8m-tz/wh_transport_nsc.c:wh_TransportNsc_ClientRecv","port/armv8m-tz/wh_transport_nsc.c:wh_TransportNsc_ServerRecv","port/armv8m-tz/wh_transport_nsc.c:wh_TransportNsc_ServerSend","src/wh_comm.c:wh_CommClient_SendRequest","src/wh_comm.c:wh_CommClient_RecvResponse","src/wh_server.c:wh_Server_HandleRequestMessage"])
p("Servers sharing one NVM and key cache do not interleave inside an operation", "When several servers, each in its own thread, share one NVM context with its lock, every request touches keys and objects only while it holds the lock, gives back every lock it takes, and never waits for a lock it holds; whatever the schedule, no two servers touch the shared store at once, all requests can still be answered, and the outcome (store, replies, everything read) is that of some order in which the servers take turns; if no request needs more than one turn, of whole requests handled one at a time.", "all requests, all choices inside a request, all behaviours of the store, any number of servers and queued requests, all schedules", "A schedule-dependent defect needs one particular interleaving out of unboundedly many; a test with threads meets almost none of them.", ["src/wh_server.c:wh_Server_NvmLock","src/wh_server.c:wh_Server_NvmUnlock","src/wh_nvm.c:wh_Nvm_Lock","src/wh_lock.c:wh_Lock_Acquire","src/wh_server_keystore.c:wh_Server_HandleKeyRequest","src/wh_server_crypto.c:wh_Server_HandleCryptoRequest","src/wh_server_nvm.c:wh_Server_HandleNvmRequest","src/wh_server_counter.c:wh_Server_HandleCounter","src/wh_server_cert.c:wh_Server_HandleCertRequest","src/wh_server_she.c:wh_Server_HandleSheRequest","docs/draft/THREADSAFE.md"])
p("Logins on several connections do not interfere", "When several servers, each in its own thread, handle logins, logouts and credential changes at once, a login succeeds only with the credential the user was last given, a user is logged in at most once at a time, a request is carried out only on a connection logged in as a user who may, and no credential is left in shared memory; all as if the requests were handled one at a time.", "all schedules of any number of servers, all request sequences, all lock and storage failures, any sharing of auth contexts and mutexes", "The defects are races on global tables and a global scratch buffer; a test meets almost none of the interleavings.", ["src/wh_auth.c:wh_Auth_Login","src/wh_auth.c:wh_Auth_Logout","src/wh_auth.c:wh_Auth_CheckRequestAuthorization","src/wh_auth.c:wh_Auth_UserSetCredentials","src/wh_auth_base.c:wh_Auth_BaseLogin","src/wh_auth_base.c:wh_Auth_BaseLogout","src/wh_auth_base.c:wh_Auth_BaseUserSetCredentials","wolfhsm/wh_auth.h:whAuthContext","src/wh_lock.c:wh_Lock_Init","docs/draft/auth.md"])
p("The SHE random generator never repeats a stream", "Blocks of random data are handed out only after the generator was initialised, once for each start of the server; they are the chain of encryptions of the seed which the initialisation stored, under the key derived from the secret key, until entropy is added. Each initialisation moves the stored seed on, so that no two streams begin at the same seed, over resets, failed writes and any number of servers; entropy added is kept in the stored seed.", "all histories of requests of all clients to all servers of a device, resets, failures of NVM, reads and derivations at every step, all AES functions", "A repetition shows only over restarts, after evictions and failures, or with several servers; a test would have to compare streams over all histories.", ["src/wh_server_she.c:_InitRnd","src/wh_server_she.c:_Rnd","src/wh_server_she.c:_ExtendSeed","src/wh_server_keystore.c:wh_Server_KeystoreReadKey","src/wh_she_crypto.c:wh_She_AesMp16_ex"])
p("SHE data commands give the cipher of the caller's data", "Encryption and decryption in ECB and CBC, generation and verification of a MAC through the SHE client calls: a call that returns success was made on a booted device and gives exactly the mode (or the CMAC) of the caller's bytes under the 16-byte key the slot holds, and changes nothing else; a call that fails leaves the output alone; a call that has all it needs succeeds; what is encrypted is decrypted again, and a MAC made is accepted, later and by other slots with the same key. Whatever packet arrives, the server does what the command it decodes to does.", "all histories of the device, all slots, keys, data, vectors, sizes, packets, buffer contents and sizes, failures of send, receive, lock, read and library", "Ciphers run in place in the one buffer of request and response with overlapping ranges, sizes come from the packet: a test tries a few lengths and one buffer content.", ["src/wh_client_she.c:wh_Client_SheEncEcb","src/wh_client_she.c:wh_Client_SheEncCbc","src/wh_client_she.c:wh_Client_SheDecEcb","src/wh_client_she.c:wh_Client_SheDecCbc","src/wh_client_she.c:wh_Client_SheGenerateMac","src/wh_client_she.c:wh_Client_SheVerifyMac","src/wh_server_she.c:_EncEcb","src/wh_server_she.c:_EncCbc","src/wh_server_she.c:_DecEcb","src/wh_server_she.c:_DecCbc","src/wh_server_she.c:_GenerateMac","src/wh_server_she.c:_VerifyMac"])
p("A SHE answer carries only its result", "Whatever packet of a SHE boot or management command arrives, the server does what the command it decodes to does, and the answer has the size of that command's and carries its code and, after success, its result; nothing of an earlier message, of the server's stack or of a secret key is in it, and after an error no result is.", "all histories of the device, all packets of any size and content, contents of the server's buffer and stack, failures of lock, NVM and library", "The answer is built in the buffer that held the request, from structures with padding and partly written fields; a test compares the fields it knows.", ["src/wh_server_she.c:wh_Server_HandleSheRequest","src/wh_server_she.c:_ReportInvalidSheState","src/wh_server_she.c:_ExportRamKey","src/wh_server_she.c:_LoadKey","src/wh_server_she.c:_GetStatus","wolfhsm/wh_message_she.h"])
p("SHE boot and management calls report what the device did", "A management call whose arguments fit has its command carried out once and returns the code of the answer, with the result in the caller's memory after success and that memory untouched after an error; bad arguments are refused before anything is sent. The boot call returns success only if the stored boot MAC is the CMAC of the whole image under the stored boot MAC key, and then the context is unlocked; it returns an error only on a locked context, or without a boot MAC key; and on a provisioned device it boots every image whose MAC is stored.", "all histories of the device before and (on other server contexts) during the call, all images and sizes below 4 GiB, buffer sizes and contents, codes of send and receive at every exchange, failures of lock, NVM and library", "The call splits the image over many messages and looks at each answer only when the next is due; the outcome depends on every message and on what other clients do in between.", ["src/wh_client_she.c:wh_Client_SheSecureBoot","src/wh_client_she.c:wh_Client_SheSetUid","src/wh_client_she.c:wh_Client_SheGetStatus","src/wh_client_she.c:wh_Client_SheLoadKey","src/wh_client_she.c:wh_Client_SheLoadPlainKey","src/wh_client_she.c:wh_Client_SheExportRamKey","src/wh_client_she.c:wh_Client_SheInitRnd","src/wh_client_she.c:wh_Client_SheRnd","src/wh_client_she.c:wh_Client_SheExtendSeed"])
p("TLS sessions leave nothing behind", "A client or server that uses the TLS transport, whatever the network and the TLS library answer, closes and frees everything it opened when it is cleaned up, or when its Init fails; it closes, frees or uses no descriptor, context or TLS object that is not its own or no longer open; and the descriptors it hands out to be polled are open and its own.", "all configurations, all sequences of calls of any length, all answers of socket, accept, connect, poll, the handshake, read and write, all other descriptors and objects of the process", "Every failure point of the set-up leaves a different set of things to undo; a test meets a few, and a leaked or twice closed descriptor shows only later, elsewhere.", ["port/posix/posix_transport_tls.c:posixTransportTls_InitConnect","port/posix/posix_transport_tls.c:posixTransportTls_SendRequest","port/posix/posix_transport_tls.c:posixTransportTls_CleanupConnect","port/posix/posix_transport_tls.c:posixTransportTls_InitListen","port/posix/posix_transport_tls.c:posixTransportTls_RecvRequest","port/posix/posix_transport_tls.c:posixTransportTls_CleanupListen","port/posix/posix_transport_tls.c:posixTransportTls_GetListenFd","port/posix/posix_transport_tcp.c:posixTransportTcp_HandleConnect","port/posix/posix_transport_tcp.c:posixTransportTcp_CleanupListen"])
p("TLS carries messages intact and only from the peer asked for", "With verification on, every message the TLS transport hands to its caller was read from a peer whose certificate verifies against the configured CA or which holds the pre-shared key, and all messages of a session come from one peer over one TLS connection. The server is handed the requests the client was told are sent, and the client the responses the server was told are sent, in order, none changed, cut, joined, lost or repeated.", "all configurations with verification, all peers, all sequences of calls, all answers of kernel and library including partial writes and handshakes that take several calls", "Authentication matters only against the peers no test plays; message boundaries depend on how the library splits and repeats writes.", ["port/posix/posix_transport_tls.c:LoadTlsCertificates","port/posix/posix_transport_tls.c:posixTransportTls_SendRequest","port/posix/posix_transport_tls.c:posixTransportTls_RecvResponse","port/posix/posix_transport_tls.c:posixTransportTls_RecvRequest","port/posix/posix_transport_tls.c:posixTransportTls_SendResponse"])
p("A lost client is noticed", "When the connection to a client is lost, or closed by it, without the closing message, the server is told, whoever was logged in is logged out, and the server can serve the next client.", "all sequences of calls and answers of kernel and TLS library, all users, all answers of the logout", "A drop can come at any point, and the tests close connections in order.", ["src/wh_server.c:wh_Server_SetConnected","port/posix/posix_transport_tls.c:posixTransportTls_RecvRequest","port/posix/posix_transport_tls.c:posixTransportTls_CleanupListen","port/posix/posix_transport_tcp.c:posixTransportTcp_RecvRequest"])
p("An NVM call does to the store what its arguments say", "Every NVM call of the client library that is sent is carried out exactly once, with the caller's id, access, flags, label, data, offset and length, whatever the byte orders of client and server; its return code, *out_rc and outputs are those of that operation on the store. Arguments too big for a packet are refused and nothing is sent; when the send or the reply fails no output is written. Whatever packets arrive, of any size and content, protected objects keep their bytes and metadata, no object becomes trusted, and no reply depends on the bytes of an object that cannot be exported.", "all calls and arguments, all stores, both byte orders on each side, all answers of lock, storage and DMA checks, all link failures; all sequences of packets with any action, size and bytes", "Tests run client and server on one machine with one byte order and packets the library builds; offsets and lengths at the limits of a packet, and hostile packets, are too many to try.", ["src/wh_client_nvm.c:wh_Client_NvmAddObject","src/wh_client_nvm.c:wh_Client_NvmRead","src/wh_client_nvm.c:wh_Client_NvmList","src/wh_client_nvm.c:wh_Client_NvmGetMetadata","src/wh_client_nvm.c:wh_Client_NvmDestroyObjects","src/wh_client_nvm.c:wh_Client_NvmGetAvailable","src/wh_client_nvm.c:wh_Client_NvmInit","src/wh_client_nvm.c:wh_Client_NvmAddObjectDma","src/wh_client_nvm.c:wh_Client_NvmReadDma","src/wh_server_nvm.c:wh_Server_HandleNvmRequest","wolfhsm/wh_message_nvm.h:whMessageNvm_AddObjectRequest"])
p("What a client stores, every client reads back", "After a store call that answers OK, and until some client stores or destroys under that id, every client reads back the same metadata (without the flags only the server may set) and the same bytes, at every offset and in pieces of any lengths, by packet or DMA, or is refused if the object was stored as not exportable; after a destroy that answers OK the object is gone for everyone. Listing from the start, each time from the id just given, names every object once, and only those that match the access and flags asked for.", "all objects, all histories of calls by any clients of any byte order with any link failures in between, all offsets, lengths and divisions into pieces", "It relates calls arbitrarily far apart by different clients, over all contents and all interleavings of other calls.", ["src/wh_client_nvm.c:wh_Client_NvmAddObject","src/wh_client_nvm.c:wh_Client_NvmGetMetadata","src/wh_client_nvm.c:wh_Client_NvmRead","src/wh_client_nvm.c:wh_Client_NvmReadDma","src/wh_client_nvm.c:wh_Client_NvmList","src/wh_client_nvm.c:wh_Client_NvmDestroyObjects","src/wh_server_nvm.c:_HandleNvmRead","src/wh_nvm_flash.c:wh_NvmFlash_List"])
p("A key call does to the keys what its arguments say", "Every key and key wrap call of the client library that is sent is carried out exactly once with the caller's id, flags, label, bytes and metadata, whatever the client's byte order, and the caller finds the code and outputs of that operation. Arguments that fit no packet are refused on the spot and nothing is sent; if the packet is not sent nothing changes. A call that fails reports the server's code and leaves the caller's outputs alone.", "all sixteen calls and their arguments, all reachable key systems, both client byte orders, old contents of the packet buffers, all answers of lock, storage, random and DMA, all link failures", "Tests run both ends on one machine with one byte order and with the few sizes the tests use; limits of packet, label and buffer for each call, and failures at each step, are too many to try.", ["src/wh_client.c:wh_Client_KeyCache","src/wh_client.c:wh_Client_KeyCacheRandom","src/wh_client.c:wh_Client_KeyEvict","src/wh_client.c:wh_Client_KeyExport","src/wh_client.c:wh_Client_KeyExportPublic","src/wh_client.c:wh_Client_KeyCommit","src/wh_client.c:wh_Client_KeyErase","src/wh_client.c:wh_Client_KeyRevoke","src/wh_client.c:wh_Client_KeyCacheDma","src/wh_client.c:wh_Client_KeyExportDma","src/wh_client_keywrap.c:wh_Client_KeyWrap","src/wh_client_keywrap.c:wh_Client_KeyWrapExport","src/wh_client_keywrap.c:wh_Client_KeyUnwrapAndExport","src/wh_client_keywrap.c:wh_Client_KeyUnwrapAndCache","src/wh_client_keywrap.c:wh_Client_DataWrap","src/wh_client_keywrap.c:wh_Client_DataUnwrap","src/wh_server_keystore.c:wh_Server_HandleKeyRequest"])
p("What a client caches, it exports", "After a call that caches a key, from a buffer, by DMA from client memory or as random bytes, and until somebody replaces, changes or evicts it, an export under that id gives the same bytes and label, whatever the byte order of the exporting client; once a commit call has answered OK the same holds through restarts, until somebody erases or replaces it. Whatever a successful export hands out is the key held under that id at that time; a DMA export writes exactly its bytes at the given address and nothing else.", "all keys, labels and flags that permit export, all histories of requests by any clients in between, both byte orders at each call", "It relates calls arbitrarily far apart through the packets of three calls, over all contents, sizes and interleavings.", ["src/wh_client.c:wh_Client_KeyCache","src/wh_client.c:wh_Client_KeyCacheDma","src/wh_client.c:wh_Client_KeyCacheRandom","src/wh_client.c:wh_Client_KeyCommit","src/wh_client.c:wh_Client_KeyExport","src/wh_client.c:wh_Client_KeyExportDma","src/wh_server_keystore.c:wh_Server_HandleKeyRequest"])
p("What a client wraps, it can unwrap", "A blob that a key wrap or data wrap call gives out comes back from the unwrap calls, on any server that holds the same key-encryption key and to a client of any byte order, as exactly the key with its metadata (cached without the trusted flag), or the data; every blob that was given out is accepted by the unwrap calls of its owner.", "all keys, metadata and data the wrap calls accept, all pairs of servers and clients holding the same key-encryption key, both byte orders", "It quantifies over all key contents and lengths up to the limits on both sides, and over pairs of devices.", ["src/wh_client_keywrap.c:wh_Client_KeyWrap","src/wh_client_keywrap.c:wh_Client_KeyUnwrapAndExport","src/wh_client_keywrap.c:wh_Client_KeyUnwrapAndCache","src/wh_client_keywrap.c:wh_Client_DataWrap","src/wh_client_keywrap.c:wh_Client_DataUnwrap","src/wh_server_keystore.c:_HandleKeyWrapRequest","wolfhsm/wh_settings.h:WOLFHSM_CFG_KEYWRAP_MAX_KEY_SIZE"])
p("Counter calls hand out rising values", "Every counter call of the client library that is sent is carried out exactly once on the caller's counter with the caller's value, whatever the byte orders, tells the caller the value the counter then has, and touches nothing else. With any number of clients, lost replies, failures and NVM calls in between, the values handed out by increments of one counter are all different and rise until it is full, none is above the counter, and the counter has moved by one for each increment carried out: at least those answered with success, at most those sent - until somebody initialises, resets or destroys it.", "all five calls, ids and values, all stores, both byte orders of each side, old contents of the packet buffers, all answers of lock and storage, all link failures, all histories of counter and NVM calls by any clients", "Tests increment a few times from one client with replies that always arrive; they cannot try interleavings of clients, lost replies at every point, or counters near the maximum on machines of both byte orders.", ["src/wh_client.c:wh_Client_CounterInit","src/wh_client.c:wh_Client_CounterReset","src/wh_client.c:wh_Client_CounterIncrement","src/wh_client.c:wh_Client_CounterRead","src/wh_client.c:wh_Client_CounterDestroy","src/wh_server_counter.c:wh_Server_HandleCounter","src/wh_message_counter.c:wh_MessageCounter_TranslateInitRequest"])
p("Random bytes reach the caller fresh and whole", "A random-bytes call fills exactly the caller's buffer with consecutive fresh output of the server's generator, whatever the packet sizes and byte orders of the two sides; it says OK exactly when every byte asked for was delivered, a failure is reported with the code of the exchange that failed, nothing outside the buffer is written, and the loop over chunks always ends. Over any history of calls by any clients, by packet or by DMA, with any failures on the way, no byte of the generator's output is handed out twice. The answer to a call is made only of the call and its result.", "all sizes, packet sizes of either side, byte orders, old contents of the packet buffers, all link, DMA and generator failures, all histories of calls by any clients", "A test sees random output and cannot tell a repeated or stale chunk from a fresh one; it cannot try every chunk boundary, packet size and failure point, nor notice bytes left on the server's stack.", ["src/wh_client_crypto.c:wh_Client_RngGenerate","src/wh_client_crypto.c:wh_Client_RngGenerateRequest","src/wh_client_crypto.c:wh_Client_RngGenerateResponse","src/wh_client_crypto.c:wh_Client_RngGenerateDma","src/wh_server_crypto.c:_HandleRng","src/wh_server_crypto.c:_HandleRngDma"])
p("An answer holds only the request and its result", "The response structure in every answer of the server is decided by the request it answers and by the values the server computed for it: nothing an earlier call, of this or another client, left on the server's stack reaches a client, on success or on failure.", "all response structures of the crypto, SHE, NVM, counter, key, certificate and authentication groups, all former contents of the server's stack, all computed values, all former contents of the packet buffer, both byte orders", "What lies on the stack depends on the compiler and on what ran before; a test cannot set it to every value, and a reader of a failed answer looks at the code only.", ["src/wh_server_crypto.c:_HandleRngDma","src/wh_server_crypto.c:_HandleMlDsaSignDma","src/wh_server_crypto.c:_HandleMlDsaVerifyDma","src/wh_server_she.c:_ReportInvalidSheState","src/wh_message_she.c:wh_MessageShe_TranslateExportRamKeyResponse","src/wh_server_keystore.c:wh_Server_HandleKeyRequest","src/wh_server_nvm.c:wh_Server_HandleNvmRequest"])
p("Authentication calls mean what they say", "A client's login, logout, add-user, delete-user, get-user, set-permissions and set-credentials calls either are refused for their arguments with a documented code and no effect, or make the server do exactly the request they name, with the same name, credential, ids and permissions, and give the caller exactly its answer. A login call reports success only when the credential presented matches the one last set for that user, and the client's session is then that user's. No credential stays in a packet buffer once the call is over.", "all histories of such calls by clients of either byte order, interleaved with all other events of the authentication manager; all names, credentials and permissions; all former contents of the packet buffers; all failures of sending, receiving, locking and storing; any hash function and signature check", "Encoding, decoding and clearing are spread over client, message and server files; tests use two names and one platform's byte order, and never look at the buffers afterwards.", ["src/wh_client_auth.c:wh_Client_AuthLogin","src/wh_client_auth.c:wh_Client_AuthUserAdd","src/wh_client_auth.c:wh_Client_AuthUserSetCredentials","src/wh_client_auth.c:wh_Client_AuthUserGet","src/wh_message_auth.c:wh_MessageAuth_TranslateLoginRequest","src/wh_message_auth.c:wh_MessageAuth_FlattenPermissions","src/wh_server_auth.c:wh_Server_HandleAuthRequest","src/wh_server.c:_FormatAuthErrorResponse"])
p("The hardware keystore is asked in order and alone", "The hardware behind a keystore is initialized and shut down alternately, is asked for a key only while it is up, by one thread at a time, under the lock it was configured with, and exactly once per request; its refusals reach the caller. An initialization that fails leaves neither the hardware nor the lock half set up, and after a clean-up nothing is left.", "all histories of calls on one keystore, with or without locking, with or without the optional callbacks, all answers of the hardware and of the lock; all schedules of any number of threads", "Hardware misuse shows only when particular callbacks fail in a particular order or threads meet at one instruction; the tests have a stub that never fails.", ["src/wh_hwkeystore.c:wh_HwKeystore_Init","src/wh_hwkeystore.c:wh_HwKeystore_GetKey","src/wh_hwkeystore.c:wh_HwKeystore_Cleanup","src/wh_lock.c:wh_Lock_Acquire","src/wh_lock.c:wh_Lock_Cleanup"])
p("A connection acts for the client that claimed it", "The calls that open, question, probe and close a connection answer truly whatever the byte orders of the two sides: an accepted initialization gives back the number claimed and the server's, the server's build is reported as it is, an echo returns the bytes sent, a close logs the user out. The requests of a connection are taken under the number it claimed itself: a number out of range is refused, no other traffic changes the number, and a connection starts without one and keeps the one it has claimed.", "all four calls with all arguments, both byte orders of each side, all packet sizes, all states of the connection; all histories of openings, drops, calls, raw packets, log-ins and other requests", "Whose keys a request reaches depends on every packet since the server started, including malformed ones and those of earlier connections; a test opens one connection and initializes it properly.", ["src/wh_server.c:_wh_Server_HandleCommRequest","src/wh_server.c:wh_Server_SetConnected","src/wh_client.c:wh_Client_CommInitResponse","src/wh_client.c:wh_Client_CommInfoResponse","src/wh_client.c:wh_Client_Echo","src/wh_message_comm.c:wh_MessageComm_TranslateInfoResponse"])
p("A custom callback gets what the client sent, and its answer comes back", "A custom request runs the callback registered under its number, once, on the client's type and data, and the caller gets the callback's return code, type and data; addresses and sizes mean the same numbers on both sides whatever their byte orders, user data are the same bytes. A query runs nothing and says truly whether a callback is registered under the number asked for. Nothing of earlier packets is in an answer.", "all requests and queries, all tables of callbacks and all callbacks, both byte orders of each side, all former contents of the server's packet buffer", "The tests run client and server on one machine, with types and numbers below 256; a wrong answer needs machines of two byte orders, a particular type, or a number whose last byte is registered.", ["src/wh_client.c:wh_Client_CustomCbRequest","src/wh_client.c:wh_Client_CustomCbCheckRegistered","src/wh_server_customcb.c:wh_Server_HandleCustomCbRequest","src/wh_message_customcb.c:_translateCustomData","src/wh_message_customcb.c:wh_MessageCustomCb_TranslateResponse"])
p("A client's certificate call does what its arguments say and tells what came of it", "Each certificate call (init, add, erase, read, verify with one or several roots with or without caching the leaf's key, clearing and switching the verify cache) makes the server do exactly what the caller's arguments say, whatever the byte orders of the two sides, and the caller is told the server's code, the cached key's id, and the whole certificate or, when it does not fit, only its length. A certificate added by one client is byte for byte what any client reads under its id, and no byte of it is given out if it is non-exportable. A refused or unsent call changes nothing. What the server does with any packet depends on the bytes received only, and success is never reported for a call the server refused.", "all calls and arguments, all results of the server, both byte orders of each side, all packets of any size and content, all former contents of the packet buffer, calls that ask for the server's code and calls that do not", "The tests use one machine, certificates that fit and well-formed packets, and always ask for the server's code; a wrong layout shows between two byte orders, for particular lengths, numbers of roots or leftovers in the buffer.", ["src/wh_client_cert.c:wh_Client_CertAddTrusted","src/wh_client_cert.c:wh_Client_CertReadTrustedResponse","src/wh_client_cert.c:_certVerifyMultiRootRequest","src/wh_client_cert.c:_certVerifyResponse","src/wh_server_cert.c:wh_Server_HandleCertRequest","src/wh_message_cert.c:wh_MessageCert_TranslateVerifyMultiRootRequest"])
p("A certificate call that hands over a buffer by address works on that buffer with the caller's arguments", "Each certificate call by address (add, read, verify with one or several roots, with or without caching the leaf's key) makes the server do exactly what the caller's arguments say on the buffer at the address the mapping gave, whatever the byte orders of the two sides, and the caller is told the server's code and the cached key's id. The bytes one client has at an address when it adds a certificate are the bytes any client finds at the address it reads them to; no other byte of the memory changes, and none at all when the read is refused. A call that is refused, unmapped or unsent, or whose buffer the server may not use, changes nothing. What the server does with any packet depends on the bytes received only, and a packet of the wrong size does nothing. A caller can tell from what it gets how long the certificate is, and success is never reported for a call the server refused.", "all calls, arguments, addresses and lengths, all results of the server, both byte orders of each side, every largest number of roots, all packets of any size and content", "The tests use one machine and one configuration; a wrong layout shows between two byte orders or for particular numbers of roots, a missed check for particular lengths or failures of a mapping.", ["src/wh_client_cert.c:wh_Client_CertAddTrustedDma","src/wh_client_cert.c:wh_Client_CertReadTrustedDmaResponse","src/wh_client_cert.c:_certVerifyMultiRootDmaRequest","src/wh_server_cert.c:wh_Server_HandleCertRequest","src/wh_message_cert.c:wh_MessageCert_TranslateVerifyMultiRootDmaRequest"])
p("An attribute certificate is reported good exactly when it is, against the root the caller named", "A client that asks for an attribute certificate to be verified, given in the packet or by address, is told success exactly when the stored root it named can be read and parsed, has a public key, and the library accepts the certificate with that key. A wrong signature is reported as a failed verification and a missing root as not found. Whatever fails on the way, or whatever packet is received, success is never reported for anything but the bytes received or the client's own buffer, and a call that was refused, unmapped or unsent writes no verdict.", "all certificates, roots, stores and addresses, all behaviours of the library's parser and check, both byte orders of each side, all failures of mapping, sending, receiving and locking, all packets of any size and content", "The tests use one certificate and its root on one machine; a verdict that leaks through on a failure path, or on stale buffer contents, shows for particular packets and failures only.", ["src/wh_client_cert.c:wh_Client_CertVerifyAcert","src/wh_client_cert.c:wh_Client_CertVerifyAcertDma","src/wh_server_cert.c:wh_Server_CertVerifyAcert","src/wh_server_cert.c:wh_Server_HandleCertRequest","src/wh_message_cert.c:wh_MessageCert_TranslateVerifyAcertRequest"])
p("Messages in cached shared memory arrive whole", "On a port whose processors have data caches, a message written by one side of the shared memory transport is read by the other side with exactly its bytes, whatever the two caches and the memory held before and whichever lines the caches write back or fetch of their own accord. A buffer that is cleared is cleared in the memory, to its last byte. Flushing or invalidating a block touches no line outside it.", "all line sizes, buffer addresses, message lengths and contents, all earlier contents of both caches and the memory, all spontaneous write-backs and fetches", "The tests run on hosts with coherent caches, where the cache macros do nothing; the effect depends on the line size, the address of the buffer, the length of the message and what memory held before.", ["src/wh_utils.c:wh_Utils_CacheFlush","src/wh_utils.c:wh_Utils_CacheInvalidate","src/wh_utils.c:wh_Utils_memcpy_flush","src/wh_utils.c:wh_Utils_memcpy_invalidate","src/wh_utils.c:wh_Utils_memset_flush","src/wh_transport_mem.c:wh_TransportMem_SendRequest","src/wh_transport_mem.c:wh_TransportMem_RecvRequest","wolfhsm/wh_settings.h:XCACHEFLUSHBLK"])
p("Secrets compare equal exactly when they are, without an early exit, and wiped memory is zero", "The comparison used for credentials and authentication codes says equal exactly when every compared byte is equal, reports a difference by a number from 1 to 255, and reads the same bytes in the same order whatever the two buffers hold. The test for zero says yes exactly for zero bytes. Wiping a buffer zeroes each of its bytes and no other byte.", "all buffers, lengths and memory contents", "A test compares a few buffers; an accumulator that loses a bit, a conversion that drops one, or an early exit shows for particular bytes and places only.", ["src/wh_utils.c:wh_Utils_ConstantCompare","src/wh_utils.c:wh_Utils_memeqzero","src/wh_utils.c:wh_Utils_ForceZero"])
p("The memory transport stays inside its shared buffers", "Whatever lengths the two sides give or find in shared memory, a request is written inside the request buffer, a response inside the response buffer, and receiving reads no byte outside the two buffers of the configuration. Clearing touches the two buffers only. A message is taken exactly if it fits the buffer behind the control word.", "all configurations the transport accepts, all message lengths, capacities and length fields, all widths of a size_t", "The tests use one configuration with large buffers; an access past the end depends on the configured size and the length together.", ["src/wh_transport_mem.c:wh_TransportMem_Init","src/wh_transport_mem.c:wh_TransportMem_InitClear","src/wh_transport_mem.c:wh_TransportMem_SendRequest","src/wh_transport_mem.c:wh_TransportMem_SendResponse","src/wh_transport_mem.c:wh_TransportMem_RecvRequest","src/wh_transport_mem.c:wh_TransportMem_RecvResponse"])
p("The printed log says what was logged, in order", "Each entry given to the printing log appears as one line, and the lines determine what was logged: time, level, file, line, function and message of every entry, in order, with nothing lost, merged or cut. No byte behind the message buffer is printed, whatever length an entry states. A log that is not initialised, or is configured to be silent, prints nothing.", "all entries and sequences of entries, all message buffer sizes, both build settings", "The tests print a few fixed messages; whether two entries can look alike, or a stated length reaches past the buffer, depends on the contents.", ["src/wh_log_printf.c:whLogPrintf_Init","src/wh_log_printf.c:whLogPrintf_AddEntry"])
with open("/verif/properties.jsonl","w") as f:
    for x in P: f.write(json.dumps(x)+"\n")
print(len(P))
