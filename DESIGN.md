# wolfHSM formal model: design

The properties are in `properties.jsonl` (C01, C02, ...). The model, the
specifications and the proofs are in `rocq/theories`. `MANIFEST.json` maps each
property to the theorems that carry it.

## Conventions

* `*Model.v` (or the first section of a file) holds executable Gallina
  definitions. Each definition cites the file and lines of /repo it models and
  says what it simplifies.
* `*Spec.v` holds small specifications that do not mention the model's helpers.
* `*Proofs.v` holds lemmas. `Properties*.v` holds only the property theorems,
  each with `Print Assumptions` and an `Example` showing that its hypotheses are
  met by a concrete non-trivial case.
* A property that the faithful model violates is recorded by a theorem ending
  in `_refuted` with a concrete witness; the surrounding part that does hold is
  proved separately. A proved weaker statement ends in `_partial`.
* Fixed-width C arithmetic is modelled with explicit `mod 2^k` wherever the wrap
  is reachable.

## Architecture of the model

1. **Base**: bytes as `N`, little-endian words, 8-byte flash units, error codes.
2. **Flash**: flat memory of 64-bit units, program and erase with the checks of
   `wh_flash_unit.c` over `wh_flash_ramsim.c`. Code that touches flash is
   written in a small program monad (`Ret`, `Get`, `Put`), with three
   interpretations: a run without faults, the set of flash images power loss can leave
   (including a torn program or erase: each unit of the interrupted write is
   old or new), and the trace of writes for the bounds properties.
3. **NVM flash backend** (`wh_nvm_flash.c`) in that monad, function by function.
   Its RAM state (active partition, state, directory) is lost at a crash and
   rebuilt by Init. It is proved to refine an abstract ordered object store.
4. **Upper layers** (policy in `wh_nvm.c`, counters, keystore, authentication,
   SHE, certificates) are state machines over the abstract store that step 3
   justifies, with atomic NVM operations. A crash is a truncation of the sequence of
   NVM operations and the loss of RAM state.
5. **Communication** (`wh_comm.c`, transports): client and server state
   machines with an arbitrary scheduler/adversary.

## Plan per property

| Property | What is modelled | How it is proved |
|---|---|---|
| C01 | wh_nvm_flash.c over unit flash | refinement to an association list, induction on call list |
| C02, C03 | crash semantics of the program monad | every crash image, recovered by Init, abstracts to old or new store |
| C04 | histories of ops, crashes and crashed recoveries | induction with a flash-image invariant |
| C05 | same | case analysis on refinement |
| C06 | GetAvailable, AddObjectWithReclaim | space-accounting invariant |
| C07 | List | induction over the directory; refuted for object id 0 |
| C08 | write trace of the monad | invariant on traces; arithmetic on byte windows |
| C09 | wh_flash_unit.c byte functions | arithmetic on units, induction on lists |
| C10-C13 | wh_nvm.c policy and server NVM handler | invariant over request sequences; C13 refuted by overwrite |
| C14 | wh_keyid.c | bit arithmetic, finite sweeps lifted by forallb |
| C15, C17 | wh_comm.c | invariant with adversarial network |
| C16 | wh_transport_mem.c | ghost history invariant over all schedules |
| C18 | translations | byte-list reasoning |
| C19, C20 | wh_server_counter.c | invariant over request sequences with crash |
| C21-C30 | wh_server_keystore.c | invariants over request sequences; C29/C30 expected to be refuted in corners |
| C31, C32 | keywrap handlers with abstract AEAD | round trip and case analysis |
| C33-C36 | wh_auth.c, wh_auth_base.c, wh_server_auth.c | invariants; crash truncation |
| C37-C40 | wh_server_she.c, wh_she_common.c, wh_she_crypto.c with abstract AES/CMAC | invariants; C40 expected to be refuted |
| C41 | wh_log_ringbuf.c | induction |
| C42 | wh_dma.c, wh_server_dma.c | arithmetic |
| C43, C58 | wh_server_cert.c: chain walk, cache, lock gaps, DMA views | invariant over a log of verifications and root changes; soundness of cached digests against an inductive `anchored`; refuted without its conditions |
| C44, C45 | wh_server_img_mgr.c | case analysis, fuelled loop |
| C46 | posix_transport_tcp.c framing | stream invariant over arbitrary chunking |
| C47 | wh_nvm_flash_log.c over a byte-addressed device whose writes tear between atoms and may fail | weakest-precondition rules for every callback, invariant relating the buffer, the two partitions and the object list; refuted for torn headers, id 0, failed adds on an empty store and failures reported after a complete write |
| C48 | LMS/XMSS sign path | invariant over histories |
| C49 | dispatch and custom callbacks | case analysis |
| C50, C51 | lock and timeout | state-machine invariants |
| C52 | packet layer over each transport | holds over shared memory, refuted over TCP |
| C53 | failing key requests | case analysis on request effects; refuted in two corners |
| C54 | permission tables of wh_auth.c | bit reasoning |
| C55, C56 | user management | invariants over all histories |
| C57 | SHE key update authority | follows C39 for the named authority; refuted for the free choice of it |
| C59 | certificate requests and NVM objects | invariant over histories; refuted for erase and overwrite |
| C60 | client and server halves of streaming hashes, context, buffer, requests | invariant relating context and pending request to the message so far; refuted for 4 GiB, byte order, software path |
| C61 | memory used by the 30 crypto handlers: reads, writes, room given to wolfCrypt, response size | case analysis of each handler over all 32-bit field values; refuted where the room forgets the header or comes from the client |
| C62 | HKDF and CMAC-KDF call: client request, server handler and wolfCrypt's rounds on the bytes of the one buffer | loop invariant over the rounds; refuted when the output reaches the info |
| C63 | AES CTR, ECB, CBC, GCM call, inline and DMA: client request, server handler and mode loop on the bytes of the one buffer; streams of calls on one object | invariant (stream position, left-over key stream) over the calls; refuted for wrapping lengths and CTR with enc = 0 |
| C64 | CMAC call, inline and DMA: client request, server handler, wolfCrypt's update and final loops on the state carried in the messages; histories of split and blocking calls | invariant (state holds the chaining value and pending block of the bytes taken) over the calls; refuted where a failed call consumes the stream |
| C65 | the part of every client function after the answer arrives, over an arbitrary buffer of which the first n bytes were received; its stores, wipes, reported lengths and decoder calls as effects | case analysis per function; noninterference (two buffers with the same message give the same outcome); comparison with message layouts written as field sizes; refuted where a function is not told the room or does not look at the size |
| C66 | a call from the client function to its result: import of the key, the request with its lengths, the handler's parsing, key loading and eviction, the cleanup request; other connections as arbitrary events between the steps | parsing inverts building; effect lemmas of the key store; case analysis over every exit; witnesses where the key stays |
| C67 | every request builder with data of the caller's length: its checks with their integer types, its writes as offset and bytes, a buffer with earlier contents | a relation between writes in sequence and the pieces they leave; one case per builder; general overrun lemma for the cut-off sums |
| C68 | the file as bytes; snprintf, fgets and sscanf for the formats used, with their limits; uninitialised memory as a parameter; write results as given | printing and scanning of decimals are inverse; a line is scanned field by field; induction over the history |
| C69 | the slot's bytes: header, parameter and key fields, the read and write callbacks with their offsets, key generation, signing, counting, export; library, DMA and NVM results as given | every access through functions that fail outside the buffer; induction over the history with a `follows` relation on private keys |
| C70 | posix_flash_file.c callback by callback on the bytes of a file, each system call stopping where an argument says; the NVM programs of C01-C05 run on it | byte lemmas on lists; a predicate on programs (blank-checked before programmed, words of 64 bits, erases of whole partitions) proved of every NVM program, and a simulation that turns every life of the file into a life of the device of C01-C05 |
| C71 | posix_transport_shm.c: every system call and header access of server and client as one step, any number of processes; the two DMA callbacks on byte memories | an invariant over all processes, names and objects; ranks for progress of a pair; copying lemmas on memories |
| C72 | wh_client_cryptocb.c: all of it; requests, client calls with all arguments, answers as an oracle | both sides are mapped to one small vocabulary of tasks (CbSpec.v); case analysis over all requests and answers |
| C73 | every call of wh_Server_DmaProcessClientAddress and every use of an address it gave, in all DMA handlers of wh_server_crypto.c, wh_server_cert.c, wh_server_nvm.c, wh_server_img_mgr.c and the copy functions of wh_server_dma.c | traces of events with an arbitrary environment; weakest preconditions over all paths, window counts in DmaWinSpec.v |
| C74 | every call of wh_Client_DmaProcessClientAddress, every request with addresses and every receive, in the client's DMA functions (wh_client_crypto.c, wh_client.c, wh_client_nvm.c, wh_client_cert.c, wh_client_dma.c), with the shared record of open buffers and the pending flag of wh_comm.c | traces over histories of calls with an arbitrary environment; an invariant ties the record to the open buffers, kept by every call; counts in ClDmaSpec.v |
| C75 | the four client and four server functions of wh_transport_nsc.c, the pending flag of the packet layer above, the server's use of the transport, and the veneer as its contract describes it | the trace of calls determines the client's context; induction over histories; the server side for any server function |
| C76 | every request handler of the server as a program of lock calls, accesses to the shared store and choices; servers as threads over one store and two locks | a type discipline (lock state, nesting, number of visits) proved for every handler; a serialisation argument that moves each step back to the start of its section; counterexamples on a one-slot store |
| C77 | login, logout, credential change and the request gate in single steps, over one user table, one scratch buffer and any assignment of auth contexts and mutexes to servers | each locked section, run to its end, does what the request's specification says; invariant over all schedules; counterexamples for the other set-ups |
| C78 | the random generator of wh_server_she.c (in SheModel), as a machine of key and state; the seeds at which streams begin, as positions in the orbit of the first | simulation over all histories; invariant on the positions of the stored and the cached seed; counterexamples |
| C79 | the SHE data calls of wh_client_she.c and their handlers in wh_server_she.c on packets and one shared buffer | the loops of wolfCrypt in place by induction; refinement of the byte-level server to the command-level model of C37-C40; composition with the client over all histories; counterexamples |
| C80 | the handlers of wh_server_she.c 193-1179 and the refusal path 1676-1818 on packets, one shared buffer and uninitialised structures | refinement to the command-level model of C37-C40 for every packet; two runs with different buffers or stacks give the same answer; counterexamples |
| C81 | the SHE boot and management calls of wh_client_she.c 74-650 over the server of C80 | induction on the chunks with the history as invariant (what was announced and sent), composed with C38; completeness by an invariant on the boot context; counterexamples |
| C82 | posix_transport_tls.c whole, with connection set-up and clean-up of posix_transport_tcp.c; descriptors, contexts and TLS objects of the process as finite maps; kernel and TLS library as oracles | invariant: what the context records is exactly what the session added to the process; counterexamples for the server |
| C83 | the same, with the library's record layer (pending writes, rest of a record) and its verification rule | invariant: the peer of a finished handshake was let in; logged records against messages, by induction on the calls; counterexamples |
| C84 | callbacks of the TLS and TCP transports into wh_Server_SetConnected (wh_server.c 199-231) | the callbacks of a session by induction on its calls; counterexamples |
| C85 | wh_client_nvm.c whole and wh_server_nvm.c on the bytes of both packets, each side of either byte order; the store of C01-C05; link outcome and environment as arguments | structures as lists of fields with one encode/decode lemma; case by case against an independent description on the store; packets through the request theorems of C10-C13 |
| C86 | histories of the calls of C85 | the object under an id as an invariant of the history; induction on pieces and on the listing |
| C87 | the key calls of wh_client.c, wh_client_keywrap.c and wh_Server_HandleKeyRequest on the bytes of both packets, the client of either byte order, against the key system of C22-C33 | structures as lists of fields; request parsing and answer reading proved inverse call by call; codes shown to be 32 bits |
| C88 | histories of the key system around the calls of C87 | the calls reduced to requests by C87, then C23 and C24 |
| C89 | wrap and unwrap calls of C87 | C87 and C31; the server's data wrap unfolded |
| C90 | the counter calls of wh_client.c and wh_Server_HandleCounter on the bytes of both packets, both sides of either byte order, together with the NVM calls of C85 | one lemma per request against a small table of effects; induction over histories with the value as the invariant |
| C91 | wh_Client_RngGenerate, its DMA form and their handlers on the bytes of both packets, for any two packet sizes and byte orders; the generator is a sequence with a position | one lemma per exchange; induction over the loop and over histories with the set of positions handed out |
| C92 | one row per response structure of the server: cleared or not, fields assigned, fields copied by the translation; filling in and translating as writes on bytes | non-interference by a byte-wise lemma for any row whose copied fields are known, checked for every row; exact positions of the stack bytes for the others |
| C93 | the seven request and response functions, the packet parsing and answers of the server, the two packet buffers, on top of the authentication manager of C33-C36 | every packet the client builds is parsed to the request it means (byte-position lemmas, both byte orders); answers are read back as the manager gave them; induction over histories carries the invariant of C35 |
| C94 | the three functions of the hardware keystore as the callbacks they make, with the lock underneath; threads as an interleaving of their steps | a monitor of the callbacks, carried through histories by an invariant of the context; mutual exclusion by an invariant of the transition system |
| C95 | the four connection calls on bytes, the handler of the comm group and the connection state of the server, as events of one server context | each call by decoding what the other side encoded; histories by a simulation of an abstract state of two fields, whose relation is shown to be functional; refutations by the general history |
| C96 | custom requests and queries on bytes, callbacks as arbitrary functions on an arbitrary state | the packets decoded by the other side; words by the field lemmas of C18, user data as bytes |
| C97 | certificate calls on bytes, the server's functions arbitrary or those of CertModel.v | the packets decoded by the other side; packets of any content by restricting every access to the received bytes; add and read through cert_handle |
| C98 | certificate calls by address on bytes, with the memory the two sides share | the packets decoded by the other side; packets of any content by restricting every access to the received bytes; add and read through cert_handle and the memory |
| C99 | attribute certificates from the call to the verdict, the library's parser and check arbitrary | the packets decoded by the other side; the server function by cases; every failure path answered with a nonzero code |
| C100 | two caches over one memory, the block loops and one message over them | the lines the loop visits characterised by induction; the exact condition for covering a block; refutation for the other blocks |
| C101 | the comparison with the indices it reads, the test for zero, wiping | induction on the length; the accumulator is zero exactly when all bytes agree and stays below 256 |
| C102 | the reads and writes of shared memory of each call of the memory transport, with the width of a size_t as an argument | arithmetic modulo the width; cases on each call |
| C103 | the printing log: the text of an entry and of a sequence | the text cut at its marks; injectivity entry by entry; witness for a message with a newline |

## Trusted base

**Kernel and axioms.** The Coq 8.16.1 kernel, including its `vm_compute`
reduction, which closes concrete examples and finite sweeps. Every theorem named
in MANIFEST.json is followed by `Print Assumptions`, and each prints "Closed
under the global context": no axiom, of the standard library or other, is used.
No plugin is loaded, no kernel check is switched off. Parameters such as the
cryptographic primitives are Section variables, so they appear as universally
quantified arguments of the finished theorems.

**The reading of /repo.** Each definition of the model cites the lines it
models. That the C code does what the definition says was judged by reading; the
code was not compiled or run. tools/genmsgs.py extracts the table of message
translation functions (MsgTable.v) from the sources, and is trusted to have read
them correctly.

**What is modelled.**

| Sources | Files | Remarks |
|---|---|---|
| wh_flash_unit.c, wh_flash_ramsim.c, wh_nvm_flash.c | Flash, NvmFlash*, NvmInv, NvmSim, NvmHistory | flash units of 8 bytes are programmed atomically; a cut program or erase leaves any subset of its units done; CRC is a parameter |
| posix_flash_file.c | FileFlash* | system calls on one regular file that nobody else writes; a write under the NVM layer stops at a unit of 8 bytes; no errors of close or fsync |
| posix_transport_shm.c | Shm* | one name; sequentially consistent memory; what is sent through the areas is C16's subject; the heap gives out bytes inside the area |
| wh_client_cryptocb.c | Cb* | all algorithms compiled in; the client functions answer arbitrarily; pointers are addresses |
| DMA handlers of wh_server_crypto.c, _cert.c, _nvm.c, _img_mgr.c | DmaWin* | windows only: the order of opening, use and closing; contents and results elsewhere |
| wh_client_dma.c and the client's DMA functions | ClDma* | opening, closing, sending and receiving only; messages elsewhere |
| port/armv8m-tz/wh_transport_nsc.c | Nsc* | the veneer is any function (client) or follows its contract (server); NULL pointers left out |
| lock use of all server request handlers (wh_server_*.c, wh_auth_base.c), wh_lock.c | Lk* | what an access does to the store is arbitrary; which branch is taken is arbitrary; the auth context's lock and user table are a server's own and left out |
| wh_auth.c, wh_auth_base.c with several servers | At* | users fixed, PIN credentials; a copy to or comparison with the scratch buffer is one step |
| _InitRnd, _Rnd, _ExtendSeed of wh_server_she.c | SheModel, Srnd* | AES as a parameter; a server without NVM is not modelled |
| SHE data commands: wh_client_she.c 652-1104, wh_server_she.c 1181-1637, wh_message_she.h | Shd* | AES block and CMAC as parameters; one byte order; valid pointers, sizes below 4 GiB |
| SHE boot and management commands: wh_client_she.c 74-650, wh_server_she.c 193-1179, 1676-1986, wh_message_she.h | Shc* | AES, CBC, CMAC as parameters; one byte order; what a failing wolfCrypt call leaves in the answer to LoadKey is any bytes; other users run between the requests of a boot, not inside one |
| TLS transport: posix_transport_tls.c, posix_transport_tcp.c 243-468, 553-686, 787-809 | Tls* | kernel and TLS library as oracles (record layer, verification rule); no setsockopt, addresses or heap hints; pre-shared keys as a flag |
| NVM calls: wh_client_nvm.c, wh_server_nvm.c, wh_message_nvm.h | Nvc* | NULL checks, NOTREADY loops and client DMA callbacks left out; client memory flat; storage as in NvmReq* |
| key calls: wh_client.c 802-1433 and 1717-1956, wh_client_keywrap.c, wh_server_keystore.c 2588-3617 | Kyc* | NULL checks, NOTREADY loops, authorization, client DMA callbacks and the DMA form of public key export left out; server little endian; AES-GCM the only cipher |
| counter calls: wh_client.c 1435-1713, wh_server_counter.c 40-232, wh_message_counter.c | Ctc* | NULL checks, NOTREADY loops and authorization left out |
| random calls: wh_client_crypto.c 201-441, wh_server_crypto.c 1992-2042, 9137-9195 | Rnd* | NULL checks, NOTREADY loops, authorization and DMA callbacks left out |
| response structures: wh_server_crypto.c, wh_server_she.c, wh_server_nvm.c, wh_server_counter.c, wh_server_keystore.c, wh_server_cert.c, wh_server_auth.c, wh_server.c 385-560, wh_message_*.c | Leak* | which fields are set and copied; not how the values are computed |
| auth calls: wh_client_auth.c 40-750, wh_message_auth.c 36-380, wh_server_auth.c 40-290, wh_server.c 386-455, 586-661 | Auc* | not: NULL arguments, polling loops |
| wh_hwkeystore.c, wh_lock.c | Hwk* | what the hardware answers is arbitrary; a lock configuration has all callbacks or none |
| connection calls: wh_client.c 296-692, wh_server.c 199-358, wh_message_comm.c | Con* | NULL outputs and the retry loops are left out; log-ins of other requests are events |
| custom callback calls: wh_client.c 694-800, wh_server_customcb.c, wh_message_customcb.c | Ccb* | NULL arguments and the retry loops are left out; the packet buffers hold the structures |
| certificate calls: wh_client_cert.c 57-809, wh_server_cert.c 882-1223, wh_message_cert.c 37-150 | Cec* | NULL arguments other than out_rc and label, the retry loops, DMA and attribute certificates are left out |
| certificate calls by address: wh_client_cert.c 811-1352, wh_server_cert.c 1226-1448, wh_message_cert.c 154-230 | Ced* | a mapping is its code and the address it gives; NULL arguments other than out_rc and label and the retry loops are left out |
| attribute certificates: wh_client_cert.c 1357-1532, wh_server_cert.c 838-878 and 1451-1570, wh_message_cert.c 184-198 and 234-244 | Acr* | wolfCrypt's parser and check are parameters; NULL arguments other than out_rc and the retry loops are left out |
| cached shared memory: wh_utils.c 151-192, wh_transport_mem.c 129-140, 164-196, 229-240 and 264-297, wh_settings.h 185-206 | Line* | a write-back cache per side with arbitrary write-backs and fetches of its own accord; the fences order the steps; the notify protocol is an argument (modelled under the transport claims); the request and response buffers share no line |
| memory helpers: wh_utils.c 108-148 | Cmp* | all three functions |
| accesses of the memory transport: wh_transport_mem.c 38-298 | Tms* | lengths and addresses only; what is written is modelled in Mem* and Line* |
| wh_log_printf.c | Lpf* | printf after the C standard for the format used |
| wh_nvm.c, wh_server_nvm.c | Store, NvmReq* | over the abstract store that C01-C05 justify; every NVM call may fail with any code and no effect |
| wh_keyid.c | KeyId | all client ids and build settings |
| wh_server_counter.c | Counter* | |
| wh_server_keystore.c, key access of wh_server_crypto.c | Ks* | the two caches, shared and per-context, any number of contexts; crypto requests are represented by how they read, create, evict and check keys, their results by parameters |
| wh_auth.c, wh_auth_base.c, wh_server_auth.c | Auth* | credentials and their hash as bytes and a parameter |
| wh_server_she.c, wh_she_common.c, wh_she_crypto.c | She* | AES and CMAC as parameters; boot, key load and export, UID, random generator (Srnd*); data commands by their key use here, on bytes in Shd* |
| wh_nvm_flash_log.c | Log* | bytes of the two partitions and of the RAM image; the atom of the device is a parameter (`l_atom`), writes tear between atoms; C's `memmove` past the buffer is the marker code `OOB`; not the partition lock calls |
| wh_server_cert.c | Cert* | wolfSSL's verify, load, parse and DER length as parameters that may depend on an arbitrary world (time, CRLs); not the attribute certificate request |
| wh_server_img_mgr.c | Img* | primitives as parameters |
| wh_comm.c, wh_transport_mem.c, posix_transport_tcp.c, wh_message_*.c | Comm*, Mem*, Tcp*, Endian*, MsgTable | shared memory is sequentially consistent; TCP as a byte stream in arbitrary pieces |
| wh_server.c, wh_server_customcb.c | Server* | dispatch, client state and gate |
| wh_dma.c, wh_server_dma.c | DmaModel | |
| wh_lock.c, wh_timeout.c, posix_lock.c, posix_timeout.c | Timeout*, PropertiesMisc | |
| wh_client_crypto.c (hashes), wh_server_crypto.c (_HandleSha*), wh_client_cryptocb.c (hash) | Hash* | initial state, compression and padding are parameters; wolfCrypt's Update and Final by their contract; polling is one event; a response is only asked for by the call that belongs to the request |
| wh_server_crypto.c (non-DMA handlers) | CryptoBounds* | only which bytes are used and how long the answer is; wolfCrypt writes at most the room it is given; LMS, XMSS, DMA, cryptocb and TRNG seed handlers are not in it |
| key derivation in wh_client_crypto.c and wh_server_crypto.c | Kdf* | HMAC and CMAC are parameters; wolfCrypt's rounds from their contract (each round reads the info and then copies its block out); struct translation as delivered (C18) |
| AES in wh_client_crypto.c and wh_server_crypto.c | Aes* | block functions and GCM are parameters; wolfCrypt's mode loops from their contract; struct translation as delivered (C18); DMA address checks and closing operations as answers |
| CMAC in wh_client_crypto.c and wh_server_crypto.c | Cmac* | block function and subkeys are parameters; wolfCrypt's update and final loops from their source contract; struct translation as delivered (C18); DMA address checks as answers; requests with inline input on the DMA path not modelled (the client sends none) |
| answers in wh_client.c, wh_client_nvm.c, wh_client_cert.c, wh_client_auth.c, wh_client_keywrap.c, wh_client_she.c, wh_client_crypto.c | ClientBounds* | from wh_Client_RecvResponse on; error codes as success or failure; how integers are read from bytes and the key decoders are parameters; size_t holds more than 32 bits; DMA closing operations left out |
| public-key calls: wh_client_crypto.c, handlers in wh_server_crypto.c | Pk* | a message arrives as it was built; DMA buffers are their contents; the client's part after the answer is in ClientBounds*; ECDH, X25519 and key generation left out |
| request building in wh_client.c, wh_client_auth.c, wh_client_cert.c, wh_client_keywrap.c, wh_client_nvm.c, wh_client_she.c, wh_client_crypto.c | Req* | the fixed fields are a parameter of the right size, padding included; NULL contexts, key objects and outputs, pending requests, DMA buffers and the hash calls left out |
| wh_log_ringbuf.c | RingBufModel | |
| posix_log_file.c, wh_log.c | LogFile* | snprintf, fgets, fputs and sscanf after the C standard and glibc for the formats used; the mutex as an answer; one process writes the file |
| wh_crypto.c (LMS/XMSS slots), wh_server_crypto.c (LMS/XMSS handlers) | Stateful* | one key's slot and NVM object; wolfCrypt's signing as a function of parameters, keys and message; DMA address checks as an answer; ids, policies and eviction in Ks* |

**What is not modelled.** Of the client library above the packet layer
(wh_client*.c) the values of the fixed request fields outside the modelled calls (the layout of requests, the handling
of every answer and the request/response and timeout discipline are modelled);
the results of the other computations of wh_server_crypto.c (their key selection,
usage check, caching, eviction and memory use are); ports other than POSIX and the TrustZone bridge; the
C-level matters of alignment, aliasing, stack and compiler. Requests of one
server context are served one after the other, as the API requires; between
contexts requests are atomic, except where a lock is given up in between and the
model says so (certificate cache, shared memory transport, locks).

**Where the code departs from the property.** Each departure is a theorem ending
in `_refuted` (or a witness beside the `_partial` theorem), named in the note of
the claim. The conditions of the `_partial` theorems exclude exactly these.
Further observations that belong to no claim: wh_Auth_CheckKeyAuthorization is
called by nobody; the SHE boot-protection, debugger and key-usage flags are
stored but never enforced; the cached leaf public key stays cached if a later element of the
chain fails; the verify callback is skipped for certificates found in the cache.
