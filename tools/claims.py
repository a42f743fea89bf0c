c("C01","proved","C01_nvm_is_a_map","Flash backend with directory, CRC, padding and both partitions, refined to a map; histories with fewer than 2^32 compactions (the partition epoch is 32 bits).")
c("C02","proved","C02_add_atomic","Crash at every callback and torn multi-unit program (any subset of units); restart may itself be interrupted.")
c("C03","proved","C03_destroy_atomic","Includes compaction and torn erase; fewer than 2^32 compactions.")
c("C04","proved","C04_histories","Histories of completed, cut and faulted operations and interrupted restarts, of any length with fewer than 2^32 compactions.")
c("C05","proved","C05_refused_changes_nothing","Memory and session are identical after a refused operation or a query.")
c("C06","proved","C06_available_exact C06_reclaim_complete","Exact conditions for plain add and for add with reclaim.")
c("C07","partial","C07_list_enumerates_partial C07_id_zero_refuted","Proved when no stored object has id 0; false for stores containing id 0, with a witness.")
c("C08","proved","C08_operation_bounds C08_boot_bounds","Every callback issued, also after callback failures; fewer than 2^32 compactions.")
c("C09","partial","C09_unit_program_partial C09_unit_program_iff C09_unaligned_refuted","Proved for unit-aligned program offsets and any read window; false for unaligned program offsets, with a witness.")
c("C10","partial","C10_nonmodifiable_kept_partial C10_dma_double_fetch_refuted C10_size_mismatch_reports_ok","Holds for every session of client NVM requests in which a DMA add's object id is not rewritten in client memory while the request runs; false with that race (witness). Key, SHE and counter requests are separate (C30, C20).")
c("C11","proved","C11_read_needs_exportable C11_no_dependence","Both per read and as non-interference over whole sessions, including racing DMA requests.")
c("C12","partial","C12_no_trusted_created C12_trusted_kept_partial C10_dma_double_fetch_refuted","Creation is impossible without exception; change and removal are impossible except by the DMA metadata race (witness).")
c("C13","partial","C13_nondestroyable_partial C13_overwrite_then_destroy_refuted","Destroy requests never remove it; false in general, because overwriting clears the flag (witness).")
c("C14","proved","C14_collision_iff C14_client_round_trip C14_server_round_trip C14_clients_disjoint","All build settings, all request ids, client ids 1-15 (the range the server accepts).")
c("C19","proved","C19_increment C19_init_read C19_history","Histories over any clients with interrupted requests; storage outcomes arbitrary.")
c("C20","partial","C20_independent C20_id_alias_refuted","Holds for ids that differ in the low eight bits; 16-bit ids equal modulo 256 are one counter (witness).")
c("C41","partial","C41_keeps_newest_partial C41_count_wrap_refuted","Holds while fewer than SIZE_MAX+1 entries are added between clears; at the wrap of the count the log shows nothing.")
c("C42","partial","C42_accept_iff C42_copy_inside_partial C42_copy_callback_refuted","Acceptance is exact; copies stay inside except writes through a custom copy callback, which gets the untransformed address (witness).")
c("C44","proved","C44_zero_only_if_accepted C44_verify_all C44_verify_all_complete","All six method settings; cryptographic primitives are parameters; image memory assumed stable during a verification.")
c("C45","proved","C45_search_safe C45_found_inside C45_not_found","Every header, size, address parity and tag; also first match and completeness.")
c("C18","partial","C18_involution C18_field_peers C18_table_complete C18_message_peers C18_message_involution C18_custom_peers C18_custom_reply_refuted","Fails for the data words of a custom-callback reply of a DMA type to a peer of the other byte order (witness). Otherwise: All 223 message translation functions (table extracted from the sources by tools/genmsgs.py) and the custom-callback messages; structure layout assumed equal on both peers.")
c("C15","partial","C15_delivery_matches_request C15_one_outstanding C15_sequence_numbers_distinct C15_wraparound_refuted","All call sequences with any packets from the transport. Sequence numbers have 16 bits: the answer to the request 65536 requests earlier is accepted (witness).")
c("C17","partial","C17_client_receive C17_server_receive_partial C17_server_unharmed C17_server_wrong_magic_refuted C17_tcp_short_message_refuted","The server accepts any magic (witness); lengths, bounds and absence of effects on the server hold. Over TCP a message of 1 to 7 bytes, dropped unanswered, leaves the transport waiting for an answer and ends the service (witness and proof).")
c("C49","partial","C49_answered_once C49_handlers_fit C49_one_handler C49_groups C49_right_handler C49_right_handler_runs C49_custom_callback C49_register C49_custom_out_of_range_refuted","The answer to an unknown group is an empty packet; a custom action outside the table is answered with the request's own bytes (witness).")
c("C50","partial","C50_expires_exactly C50_unconfigured_never C50_failed_restart_refuted C50_mutual_exclusion C50_release_by_holder","All schedules of threads and all call sequences with a working clock; a failing clock at a restart leaves the timer running from zero (witness).")
c("C51","partial","C51_timeout_fires C51_stale_answer_refuted","Holds while nothing arrives; a stale answer stops the timer for good (witness).")
c("C16","proved","C16_ideal_exchange C16_server_receives_last_request C16_one_answer_per_request C16_client_receives_its_answer_once C16_copy_bounds","Two threads, interleaved at the granularity of single accesses to shared memory, all schedules; a sequentially consistent memory (C100 has caches) and buffers that hold at least a control word (C102 has smaller ones) are assumed.")
c("C46","partial","C46_messages_intact C46_receive_completes C46_any_peer C46_impossible_length C46_abandoned_send_refuted","All chunkings, errors and call orders, if a send that is not ready is repeated with the same message; without that the framing breaks and the send reads outside the buffer (witness).")
c("C52","partial","C52_mem_send_after_abort C52_tcp_refuted","Holds over shared memory. Over TCP a client that gave up a request can never send again (proved for all continuations).")
c("C22","proved","C22_uncommitted_key_kept C22_full_cache_refuses C22_full_cache_refuses_load","All key requests in all reachable states of any number of server contexts; only requests that name the key replace, evict or commit it.")
c("C23","partial","C23_committed_key_durable C23_committed_key_readable KeyExamples.C23_empty_key_refuted","Holds for every history including resets, compactions are below this layer. A committed key of zero bytes cannot be read back after a reset (witness).")
c("C24","partial","C24_cached_key_stays C24_seen_is_exported C24_seen_is_used KeyExamples.C24_dma_size_refuted","All creating requests and histories. A DMA cache request with a size of 65536 or more caches only the low 16 bits of the size (witness).")
c("C25","partial","C25_erased_key_gone KeyExamples.C25_other_context_refuted","Holds for the context that erased it; a copy cached by another server context for the same client survives (witness).")
c("C26","proved","C26_allocated_id_fresh C26_succeeds_while_an_id_is_free","All states and all allocating requests.")
c("C53","partial","C53_failed_request_keeps_nvm C53_failed_request_keeps_key_partial KeyExamples.C53_failed_cache_loses_key_refuted KeyExamples.C53_failed_generation_loses_key_refuted","NVM is never changed by a failing request. The cached key may be lost by a failing DMA or random generation over it (witnesses).")
c("C21","proved","C21_export_needs_exportable C21_no_dependence","Per response, and as non-interference over whole histories of management requests, including resets and raw NVM requests.")
c("C27","partial","C27_keys_of_others_kept C27_no_dependence UseExamples.C27_raw_nvm_read_refuted","Holds for all key requests. Raw NVM requests are not tied to a client: a committed key without the non-exportable flag is read by any client by its NVM id (witness).")
c("C28","partial","C28_use_needs_flags C28_kek_needs_flag UseExamples.C28_stateful_sign_refuted UseExamples.C28_sign_without_sign_flag_refuted","Holds for all operations of the usage table and for key-encryption keys; stateful signing looks at no flag (witness); RSA private operations and CMAC accept either of two flags (witness).")
c("C29","partial","C29_stored_key_stays_revoked C29_cached_key_stays_revoked RevokeExamples.C29_retry_after_nvm_failure_refuted RevokeExamples.C29_other_context_refuted RevokeExamples.C29_crypto_evict_refuted RevokeExamples.C29_stateful_sign_refuted","All later histories with resets for keys in NVM. Fails after a failed NVM write of an earlier revocation, for a copy in another server context, for an uncommitted key evicted by a crypto request, and for stateful signing (witnesses).")
c("C30","partial","C30_stored_key_kept C30_cached_key_kept RevokeExamples.C30_crypto_evict_refuted RevokeExamples.C30_commit_over_nonmodifiable_refuted","All later histories. Fails for an uncommitted key evicted by a crypto request, and for a commit over an object written by an NVM request in between (witnesses).")
c("C31","proved","C31_wrap_then_unwrap C31_unwrap_succeeds C31_cached_under_own_id C31_refused_blob_leaves_nothing","For any AEAD with the stated contract; all states, blobs and clients.")
c("C32","proved","C32_wrap_export_needs_trusted_kek C32_trusted_never_made","All requests; and no history of requests makes a key trusted that was not.")
c("C48","partial","C48_signature_from_current_state C48_states_strictly_increase OtsExamples.C48_two_contexts_refuted","""Proved for every history of key, NVM and counter requests, storage failures, evictions, set-up of contexts and resets: the indices of the private-key states used for signatures returned with OK strictly increase, given that the signature library advances the index with each signature, that the id is not given to another key or written as an NVM object meanwhile (by a client that may cache over the key this can set it back, see C69_rollback_refuted), and that the client owning the key is served by contexts sharing one cache. Two contexts serving the same client reuse a state (refuted). Not covered: signature bytes that the library has already written to client DMA memory when the NVM write then fails (answered ABORTED).""")
c("C33","partial","C33_authorised check_request_spec C33_current_permissions Demo.C33_stale_permissions_refuted","Gate proved for every packet, session and permission word. The session's permissions are a copy taken at login: they are the user's permissions until another session changes or deletes the user, after which the old ones stay in force (witness).")
c("C34","partial","C34_within_grants C34_no_escalation Demo.C34_demoted_refuted Demo.C34_reused_id_refuted Demo.C34_planted_index_refuted","All histories of authentication requests, resets and storage failures, as long as NVM requests leave the reserved ids alone. Grants are those of sessions acting as administrator: a demoted administrator, or the successor of a deleted user id, goes on acting until logout, and a raw NVM write of the index plants an administrator (witnesses).")
c("C35","partial","C35_login C35_one_session Demo.C35_two_sessions_refuted Demo.C35_left_over_credential_refuted","Login only with the current credential in all histories in which users are added with a credential; a user added without one inherits the credential object left by the previous holder of the id (witness). One session per user while nobody logs out another user's session (witness otherwise).")
c("C36","partial","C36_old_or_new C36_durable Demo.C36_failed_delete_refuted","All crash points and storage failures of every database update, except a delete whose two writes both fail (witness).")
c("C54","proved","C54_permissions_roundtrip","All permission words.")
c("C55","partial","C55_set_credential","All histories in which users are added with a credential; a user added without one may inherit the object left by the previous holder of the id (see C35).")
c("C56","proved","C56_management_needs_admin","Any state, reachable or not, and any request answered OK.")
c("C37","proved","C37_gated C37_served C37_status C37_uid_once C37_uid_stays","All histories of SHE, key store and NVM requests on any number of server contexts, and server restarts.")
c("C38","partial","C38_finish_sound C38_boot_only_partial SheExamples.C38_wrong_size_key_refuted SheExamples.C38_read_failure_refuted SheExamples.C38_other_client_refuted SheExamples.C38_short_mac_refuted","Boot completes only by a finish whose MAC over the size and all received bytes matches, or by an initialisation that found no 16-byte boot key; a boot key of another size, or one that cannot be read, counts as none (witnesses). Missing: the finish compares as many bytes as the stored MAC has, so a short MAC object accepts more images, and finish uses the finishing client's slot (witnesses).")
c("C39","partial","C39_update_partial C39_counter_partial C39_write_protected_partial C39_served SheKeyExamples.C39_nvm_write_refuted SheKeyExamples.C39_two_contexts_refuted SheKeyExamples.C39_read_failure_refuted SheKeyExamples.C39_unwrap_refuted","All histories in which the slot is served by one server context (or the shared cache), is not written with NVM requests and NVM reads do not fail; write protection also needs that no wrapped key is unwrapped into the cache. Each condition is needed (witnesses). Conversely an authentic and allowed update is served (C39_served).")
c("C40","partial","C40_roundtrip_partial SheKeyExamples.C40_flags_refuted SheKeyExamples.C40_wildcard_refuted SheKeyExamples.C40_big_counter_refuted","All 28-bit counters: key, counter, M4 and M5 agree. The flags do not: they are stored shifted by four bits, so write protection becomes the wildcard flag (witnesses).")
c("C57","partial","C39_update_partial SheKeyExamples.C57_any_authority_refuted","The update is authentic under the slot it names as authorising (C39), but any slot may be named, the RAM key loaded in plain included (witness).")

c("C43","partial","C43_hit_partial C43_hit_after_clear_partial C43_accept_partial CertExamples.C43_raw_nvm_refuted CertExamples.C43_two_contexts_refuted CertExamples.C43_dma_double_fetch_refuted CertExamples.C43_evict_lock_refuted CertExamples.C43_clear_race_refuted","All histories on any number of server contexts, per-context or shared caches, DMA and plain requests, wolfSSL abstract. The roots must be changed by certificate requests through the same cache, with its lock working, and client memory must not change during a request; each condition is needed (witnesses). C43_accept also gives the meaning of acceptance: every certificate is anchored in the roots now stored.")
c("C58","partial","C58_refuses_nothing C58_disabled CertExamples.C58_same_answers_refuted","Any cache contents. The converse fails: with the cache an intermediate is accepted without its issuer (witness).")
c("C59","partial","C59_trusted C59_read C59_nondestroyable_partial C59_nonmodifiable_partial CertExamples.C59_erase_nonmodifiable_refuted CertExamples.C59_overwrite_then_erase_refuted","All histories of certificate and NVM requests. Missing: EraseTrusted removes non-modifiable objects of any kind, and overwriting drops the non-destroyable flag (witnesses).")
c("C47","partial","C47_map_partial C47_atomic_partial C47_histories_partial C47_failed_partial C47_refused_changes_nothing C47_operation_bounds C47_boot_bounds LogExamples.C47_failed_add_on_empty_refuted LogExamples.C47_refused_destroy_refuted LogExamples.C47_id_zero_refuted LogExamples.C47_torn_header_refuted LogExamples.C47_done_but_failed_refuted","All histories with fewer than 2^32 writes, power loss inside any write, failing writes, any geometry, ids other than 0, on a device that programs a whole header as one and whose failed program is incomplete. Each condition is needed (witnesses): otherwise the store may not start again or lose both contents; id 0 hides later objects; a failed add on an empty store leaves a ghost object.")
c("C60","partial","C60_split_calls_partial C60_buffer_bounded C60_refused_request_changes_nothing C60_requests_served C60_blocking_calls_partial C60_one_call_hashes C60_sha3_software_path HashToy.C60_four_gib_refuted HashToy.C60_byte_order_refuted HashToy.C60_software_path_refuted HashToy.C60_update_during_final_refuted HashToy.C60_repeat_refuted","All ten variants, all messages and cuts, any failures, the compression function abstract. Missing (witnesses): SHA-384/512 from 4 GiB, SHA-2 between peers of different byte order, SHA-2 in wolfCrypt over a server without it, an update during a final request, repeating a failed SHA-2 update.")
c("C61","partial","C61_in_bounds_partial C61_overrun_limited_partial C61_fitting_output_in_bounds C61_answer_holds_no_old_bytes CryptoBoundsToy.C61_key_generation_overrun_refuted CryptoBoundsToy.C61_signature_overrun_refuted CryptoBoundsToy.C61_rsa_room_from_client_refuted","All 30 handlers, all field values and sizes, wolfCrypt assumed to keep to the room it is given. Missing (witnesses): fourteen handlers compute that room without the 12-byte header, and an RSA operation takes it from the client.")
c("C62","partial","C62_hkdf_partial C62_cmac_partial C62_hkdf_served C62_cmac_served KdfToy.C62_hkdf_overlap_refuted KdfToy.C62_cmac_overlap_refuted","All inputs, HMAC and CMAC abstract, for outputs that end or begin their last block before the info in the shared buffer. Missing: longer outputs, where the output overwrites the info that is still to be read and a wrong key is returned as OK (witnesses).")
c("C63","partial","C63_ctr_stream C63_ctr_enc0_stream C63_ctr_roundtrip C63_ecb_stream C63_cbc_encrypt_stream C63_cbc_decrypt_stream C63_cbc_roundtrip C63_failed_call_changes_nothing C63_gcm C63_gcm_dma C63_ctr_served C63_ecb_served C63_cbc_served C63_gcm_served C63_gcm_dma_served C63_every_call_returns_partial C63_one_MiB_hangs_refuted C63_four_GiB_overruns_refuted AesToy.C63_ctr_enc0_undoes_refuted AesToy.C63_dma_failure_keeps_output_refuted","All messages, cuts, paths and failures, the block function and GCM abstract. Missing (witnesses): an ECB or CBC message of a multiple of 1 MiB waits for ever, a request length that wraps 32 bits overruns the client's buffer, a CTR call with enc = 0 runs under the decryption schedule, and a failed DMA call may have written the output.")
c("C64","partial","C64_stream_partial C64_blocking_partial C64_one_call C64_served MacToy.C64_one_call_is_alone_refuted MacToy.C64_failed_call_may_be_repeated_refuted MacToy.C64_refused_final_keeps_stream_refuted MacToy.C64_given_key_is_kept_refuted","All histories of calls on one object below 4 GiB, the block function and subkeys abstract. Missing (witnesses): a key-message-MAC call in the last 32 bytes of a request is appended to the old stream, a failed call with input and MAC may have taken the input, a final refused for its tag length ends the stream, and a key given to an object with a key id is not kept for the next piece.")
c("C65","partial","C65_in_bounds_partial C65_in_bounds_roomy C65_in_bounds_refuted C65_only_received_partial C65_only_received_refuted C65_told_partial C65_told_refuted C65_delivers C65_delivered_was_received C65_fixed_fields C65_crypto_fields C65_sha2_fields C65_sha3_fields C65_gcm_delivers C65_encaps_delivers C65_cmac_delivers C65_key_parsed C65_label_delivered C65_aes_chain_delivered C65_kem_failure_wipes C65_error_reported C65_parsed_was_received C65_shared_id C65_verify_result","Every response function; error codes are abstracted to success or failure. Missing (theorems ending in _refuted): wh_Client_EchoResponse, wh_Client_NvmReadResponse and the AES-CTR, -ECB and -CBC answers store as much as the server says, the Curve25519, ML-DSA and ML-KEM key generations use the key id before (or without) looking at the size received, and the DMA key export and DMA Ed25519 signature report the server's length unchecked. With this repository's server the AES lengths are those requested (C63).")
c("C66","partial","C66_no_trace_partial C66_no_trace_concurrent_partial C66_result C66_result_concurrent C66_completes C66_error_no_output C66_named_key_stays C66_named_key_result C66_named_key_completes PkExamples.C66_unknown_rsa_type_refuted PkExamples.C66_refused_request_refuted PkExamples.C66_key_setup_refuted PkExamples.C66_lost_answer_refuted PkExamples.C66_evict_lock_refuted","Missing (theorems ending in _refuted): the imported key stays in the cache after an RSA call with an operation code that is none of the four, when the request is refused before it reaches its handler, when an ML-DSA DMA verification cannot set up its key object, when the lock cannot be had for the eviction, and when the answer to the import is lost. Not modelled: ECDH and X25519 (two keys).")
c("C67","partial","C67_request_partial C67_in_the_buffer_partial C67_label_partial C67_wrapped_sum_refuted C67_she_wrapped_sum_refuted C67_she_vector_refuted C67_aes_blocks_refuted C67_stale_bytes_refuted","51 request builders; the values of the fixed fields are a parameter (their layout is C18). Missing (theorems ending in _refuted): a sum of lengths that is cut off to 16 bits (ECC sign and verify) or 32 bits (AES, KDF, Ed25519, ML-DSA; SHE with a 32-bit size_t) passes the check and the copy leaves the buffer; SHE CBC copies the vector with its stated length; AES ECB and CBC send nothing for a multiple of 1 MiB; a NULL salt or info of HKDF and a NULL context of ML-DSA with a length send bytes of an earlier message.")
c("C68","partial","C68_returns_partial C68_export_partial C68_message_partial C68_newline_refuted C68_empty_message_refuted C68_file_name_refuted C68_names_refuted C68_short_write_refuted C68_array_refuted","All histories with entries of one-line messages of 1 to 255 bytes and non-empty names of at most 255 bytes without the separator that follows them, writes done as a whole or not at all. Missing (theorems ending in _refuted): a newline in a message forges entries; an empty message comes back as stack contents; entries with an empty, long or colon-bearing name are lost or changed; a short write spoils the next entry; WOLFHSM_CFG_LOG_MSG_MAX other than 256 overruns the reader's array or cuts messages. An entry whose line has 1024 bytes or more is refused, which wh_Log_AddMsg does not report.")
c("C69","partial","C69_keygen C69_sign C69_read C69_history C69_memory C69_calls C69_leftovers C69_import_partial C69_public StatefulExamples.C69_trailing_refuted StatefulExamples.C69_rollback_refuted","Proved for every key that fits a slot, every slot contents, every storage failure and every history of one key. Import: proved that bytes which pass the check and are as long as their header says cannot sign; refuted for longer ones: the check looks at the header's private length only while signing reads the private key from behind the public key whatever the header says, so a client can import a private key, and set a key it may cache over back to an earlier state (two signatures with one one-time key). The library is a parameter that keeps the private key's size; the DMA copies are answers.")
c("C70","partial","C70_init C70_read C70_write C70_check C70_read_back C70_nvm_is_a_map C70_histories C70_atomic FileFlashExamples.C70_fstat_refuted FileFlashExamples.C70_blank_refuted","Proved for every file, configuration, offset, size, data and failing system call, and for every history under the NVM layer; in those, writes stop at units of 8 bytes, as in C01-C05, and reads of the file succeed. Refuted: if fstat fails, Init answers OK without giving the file its size, and reads inside the device then fail. Programming bytes that are not erased is not refused, as the simulated flash refuses it (the NVM layer checks first).")
c("C71","partial","C71_layout C71_agree C71_connected C71_name_gone C71_view_kept C71_pair_connects C71_server_dma C71_dma_copied C71_dma_in_place ShmExamples.C71_one_client_refuted ShmExamples.C71_reachable_refuted ShmExamples.C71_hostile_refuted ShmExamples.C71_area_end_refuted ShmExamples.C71_null_refuted","Proved for every set of processes that keep to the protocol and every interleaving. Refuted: two clients that open the object before the first removes its name both use it; a client of an earlier server can remove the name of a new server, which is then out of reach for good; a process that writes the header while the server reads it back makes the server use memory outside the object; a DMA buffer that ends exactly at the end of the area is not recognised and refused without a heap; a null DMA buffer with a length reaches the server as the start of the area.")
c("C72","partial","C72_same_task C72_within C72_public_room C72_mldsa_size C72_offered C72_once C72_result C72_lengths CbExamples.C72_verify_refuted CbExamples.C72_room_refuted CbExamples.C72_dma_code_refuted CbExamples.C72_dma_length_refuted","Proved for every request and every answer; sameness of the task for requests whose 16-bit lengths fit. Refuted: RSA, ECDSA, ECDH and X25519 lengths above 65535 are cut to 16 bits (a signature of 65608 bytes is verified as its first 72, room for 65536 bytes becomes none); by DMA the codes for wrong arguments and missing room reach wolfCrypt untranslated, and the length an Ed25519 signature needs is not told.")
c("C73","partial","C73_use C73_paired C73_success C73_none_left C73_none_left_mapped C73_none_left_read C73_none_extra C73_none_extra_granted C73_callback DmaWinExamples.C73_failed_decryption_refuted DmaWinExamples.C73_failure_refuted DmaWinExamples.C73_close_unopened_refuted DmaWinExamples.C73_close_refused_refuted DmaWinExamples.C73_null_refuted DmaWinExamples.C73_copy_refuted DmaWinExamples.C73_length_refuted DmaWinExamples.C73_callback_refuted","Use inside open windows is proved for all requests and environments; exact closing for hashing, certificates, NVM, images and stored-key generation, and for every request that succeeds. Refuted: a GCM decryption with a wrong tag (and failing AES, RNG, ephemeral ML-DSA and ML-KEM key generation) leaves the output window open; LMS/XMSS verification without a key closes windows never opened; Ed25519 and others close after a refusal; windows at address 0 and windows of a failing copy callback stay open; lengths at closing may differ; a callback overruled by the allow list is not told to close.")
c("C74","partial","C74_idle C74_none_extra C74_held C74_released C74_success C74_delivered C74_direct C74_blocking C74_about ClDmaExamples.C74_timeout_refuted ClDmaExamples.C74_pending_closed_refuted ClDmaExamples.C74_timer_refuted ClDmaExamples.C74_abort_refuted ClDmaExamples.C74_mispaired_refuted ClDmaExamples.C74_close_unopened_refuted ClDmaExamples.C74_copy_back_refuted ClDmaExamples.C74_no_buffer_refuted ClDmaExamples.C74_refused_arguments_refuted","Proved over all histories in which the caller pairs Request and Response and does not throw a pending request away. Refuted: after a timeout, a bad magic number, a transport error or a timer that does not start, buffers are closed although the server may still use them; aborting or cleaning up leaves them open; a mispaired Response closes in the wrong direction; direct signing calls close buffers that were refused; failing to copy the output back is reported as success by all but key export, certificate and object read, and stateful signatures; NVM calls without a buffer send address 0; a blocking call whose Response refuses its arguments leaves the request pending.")
c("C75","partial","C75_received C75_kept C75_sent C75_goes_on C75_server C75_server_once NscExamples.C75_abort_refuted NscExamples.C75_stale_size_refuted NscExamples.C75_notready_refuted","Proved for all histories. Refuted: a request given up (AbortPending) before its answer is fetched blocks the bridge for good, since the packet layer never fetches that answer and Send refuses while it is there; an empty command or a disconnected server leaves the size of the previous answer for the veneer to read, also beyond the present room; NOTREADY from Send may mean refused or carried out.")
c("C76","partial","C76_locked C76_balanced C76_visits C76_image C76_exclusive C76_completes C76_in_turns C76_one_at_a_time C76_ecc_refuted C76_evict_refuted C76_image_refuted","Proved for all requests but two, for any store and any schedule. Refuted: making and checking an ECC public key read and evict the key without the lock, so a key evicted and replaced by another server is used under the wrong id; a request that loads a key and later evicts it takes the lock twice, so a key another server caches in between is lost although it was told that it was stored; image verification does not lock by itself. The turn theorems leave out the two requests that take only the global verify cache's lock.")
c("C77","partial","C77_one_at_a_time C77_login C77_one_session C77_acts C77_progress AtExamples.C77_own_mutex_refuted AtExamples.C77_own_mutex_twice_refuted AtExamples.C77_shared_context_refuted AtExamples.C77_shared_gate_refuted","Proved for all schedules and failures when each server has an auth context of its own and all contexts use one mutex. Refuted for the other set-ups: with a mutex for each context the global scratch buffer and user table are unprotected, and a user who logs in over one connection while presenting the same PIN for the administrator over another is logged in as administrator, or the same user twice; with one context for all, a login on one connection authorises every other, and a request past the gate is carried out after logout. Users are not added or deleted here.")
c("C78","partial","C78_stream C78_session C78_once C78_extend C78_starts_partial C78_no_repeat_partial SrndExamples.C78_shared_cache_refuted SrndExamples.C78_new_context_refuted SrndExamples.C78_two_contexts_refuted SrndExamples.C78_entropy_lost_refuted SrndExamples.C78_per_client_refuted","The stream itself is proved for all histories. That streams never begin twice at one seed is proved for slots served by one context, set up again with the device if the slots are shared, without entropy and foreign writes. Refuted beyond: the new seed is written to NVM while the cache keeps the old one, so with WOLFHSM_CFG_SHE_GLOBAL_KEYS two servers, or one set up again, hand out the same blocks; the stored seed forgets earlier entropy; and the generator belongs to the server context, so the next client continues the stream of the one before. AES is a parameter: that its orbit does not repeat is a hypothesis.")
c("C79","partial","C79_in_place C79_server C79_cipher C79_cipher_served C79_roundtrip C79_mac C79_verify C79_mac_roundtrip C79_mac_served C79_state ShdExamples.C79_tail_refuted ShdExamples.C79_iv_overrun_refuted ShdExamples.C79_any_slot_refuted ShdExamples.C79_late_refusal_refuted","Proved for whole blocks and every packet. Refuted: a length that is no multiple of 16 is accepted with OK and its tail is neither processed nor written; a vector longer than the client's buffer is copied past its end; no slot is reserved for its purpose, so any client may compute the boot MAC of its own image; GenerateMac refuses a small output only after the request was sent. AES and CMAC are parameters; both sides have one byte order.")
c("C80","partial","C80_server C80_from_request C80_no_stack C80_error_blank ShcExamples.C80_refused_refuted ShcExamples.C80_ram_key_refuted ShcExamples.C80_status_refuted","Proved: code, size and result on every packet; independence of earlier messages (all but the status answer's padding) and of the server's stack (all but refused commands, and a stored boot MAC shorter than 16 bytes); no result after an error while wolfCrypt and NVM work. Refuted: a command refused before the boot is answered with an uninitialised structure, bytes of the server's stack; when wolfCrypt fails during the export of the RAM key the answer can hold the key in clear; the status answer returns 7 bytes of a previous message. AES, CBC and CMAC are parameters; one byte order.")
c("C81","partial","C81_call C81_bad_args C81_boot_sound C81_boot_fail C81_boot_none C81_boot_complete ShcExamples.C81_late_refusal_refuted ShcExamples.C81_last_code_refuted","Proved over all histories; the boot theorems let other clients use other server contexts between the messages. Refuted: the call for random bytes refuses a small output only after the command ran; the boot call does not look at the answer to the last chunk, so its error is replaced by that of the finish. A stored boot MAC shorter than 16 bytes is compared on its length only (see C38). AES, CBC and CMAC are parameters; one byte order.")
c("C82","partial","C82_client C82_client_init_fails C82_server_init_fails C82_fds C82_server_partial C82_accepted_refuted C82_stale_fd_refuted","Proved: the client in full, failed Inits of both, and what a running server holds. Refuted for the server: Cleanup does not close the accepted socket (it is recorded in the TLS context, the TCP clean-up looks at its own field), so each session with a client loses a descriptor, which is all that is lost (C82_server_partial); and after an Init that failed on its certificates GetListenFd still answers with the closed descriptor. The kernel and the TLS library are oracles; setsockopt and addresses are left out.")
c("C83","partial","C83_client_authentic C83_server_authentic C83_requests_intact C83_responses_intact C83_not_repeated_refuted C83_long_refuted","Proved, the second part for a sender that repeats a send that was not ready with the same message and for messages of one record; both conditions are needed (refuted without): a different message of the same length after NOTREADY is reported as sent while the earlier one is, and a message longer than the library's fragment arrives in pieces. Authentic means issued by the CA: the source checks no name, so any certificate of that CA can act as the server. That a TLS channel delivers what was written is a hypothesis on the record layer.")
c("C84","partial","C84_cleanup_logs_out C84_tcp_reset C84_tls_not_told C84_stuck C84_tls_drop_refuted C84_tcp_eof_refuted","Proved: cleaning up the TLS transport, and a reset TCP connection, tell the server, and being told logs out whoever is logged in whatever the logout answers. Refuted: with TLS the server is never told between Init and Cleanup (C84_tls_not_told), stays with the lost connection (C84_stuck) and keeps the user logged in, contrary to the comment in wh_Server_SetConnected; with TCP, when the client closes its end read returns 0 and RecvRequest answers NOTREADY for ever.")
c("C85","partial","C85_call C85_refused C85_unsent C85_unheard C85_add_dma_partial C85_read_dma C85_packets_kept C85_packets_trusted C85_packets_silent C85_reply_fits C85_add_dma_refuted C85_mismatch_refuted","Proved for every call by packet, for the DMA read, and for the DMA store between machines of one byte order. Refuted for the DMA store between machines of different byte orders: the metadata structure is read from client memory untranslated, so the object is stored under another id with other flags and the answer is OK. An add packet whose length field does not match its size is answered OK and does nothing (no library call sends one). The conditions of the listing: no object of id 0 (C07) and fewer than 65536 objects. Client DMA callbacks and authorization are left out here (C40, C41, C73).")
c("C86","partial","C86_read_back C86_pieces C86_listing C86_destroyed C86_filter_refuted","Proved but for the selection in listings: the access and flags given are ignored (a TODO in wh_NvmFlash_List), so a listing answers the same for all of them, contrary to the interface. An empty object has metadata but every read of it answers BADARGS. Other clients' calls are any calls of the library; for objects that cannot be modified any packets (C85_packets_kept).")
c("C87","partial","C87_call C87_refused C87_unsent C87_unheard C87_failed C87_lock_code_refuted C87_label_on_failure_refuted","Proved but for two departures. When the server cannot take its lock the six wrap calls report ABORTED instead of the server's code, as they look at the cipher type of the answer, then 0, before the code. wh_Client_KeyExport writes the label although it fails with ABORTED for a small key buffer (wh_Client_KeyExportPublic does not). The server is little endian. For wh_Client_KeyWrapExport the labels the server holds are taken to be 24 bytes long, the type of the field. The DMA form of public key export and client DMA callbacks are left out.")
c("C88","proved","C88_cached_then_exported C88_committed_then_exported C88_exported_is_held C88_exported_by_dma","Exports succeed for keys that fit the export packet (DL - 36 bytes) and the caller's buffer. The history in between is that of C23 and C24.")
c("C89","partial","C89_wrapped_then_unwrapped C89_unwrap_succeeds_partial C89_data_then_back C89_long_key_refuted C89_long_data_refuted","That what comes back is what was wrapped is proved for all lengths. That the unwrap call accepts the blob is proved for keys up to WOLFHSM_CFG_KEYWRAP_MAX_KEY_SIZE - 60 bytes and refuted above: the client compares the length of the blob, 60 bytes longer than the key (28 for data), with the limit for the key, so it wraps keys and data it then refuses to unwrap with BADARGS. AEAD decryption inverts encryption by assumption.")
c("C90","partial","C90_call C90_refused C90_unsent C90_unheard C90_history C90_fresh C90_apart C90_reset_refuted C90_nvm_rollback_refuted C90_alias_refuted","Proved but for three departures. A reset that fails has already written 0 to the caller's variable. An NVM add call by any client under the counter's object id is accepted and sets the counter back, so the history theorem asks that no NVM call stores or destroys under that id. Counter ids above 255 are taken and share the counters below.")
c("C91","partial","C91_call C91_any C91_reason C91_small C91_ends C91_response C91_dma C91_history C91_dma_reply C91_dma_reply_refuted","Proved but for the last sentence: the DMA handler sends its response structure without initialising it, so a successful DMA call carries 16 bytes of the server's stack; C91_dma_reply shows that the stack decides nothing else. The generator's own output is an arbitrary sequence, not assumed random.")
c("C92","partial","C92_clean C92_leak_refuted C92_refusal_refuted C92_refusal_code","Proved for all response structures but sixteen (C92_leak_refuted counts and locates the bytes): three DMA handlers send 16 bytes of stack on success, and the answers of a SHE server that is not provisioned or not booted send 4 to 112. C92_refusal_refuted: any client that asks such a server to export the RAM key gets 112 bytes of its stack. Missing: the data behind the structures and the two structures of the comm group.")
c("C93","partial","C93_history C93_call C93_login C93_wiped C93_any_reply C93_only_packet C93_unconfigured_refuted C93_refused_keeps_refuted","Proved for packets of at least 510 bytes that fit the server's; C93_only_packet is for any packet, malformed ones included. Refuted in two parts: a request that authorization refuses leaves its credentials in the server's packet buffer (C93_refused_keeps_refuted), and add-user and get-user cannot read the not-enabled answer of a server without an authentication context and return ABORTED (C93_unconfigured_refuted). Missing: NULL arguments, the polling loops, clients whose packets are longer than the server's.")
c("C94","partial","C94_order C94_get C94_alone C94_double_init_refuted C94_teardown_refuted","Proved for applications that do not initialize a keystore in use. Refuted: a second Init is not refused and sets the hardware and the lock up again over running ones (C94_double_init_refuted); Cleanup takes no lock, so the hardware can be shut down while it gives a key and be asked after that (C94_teardown_refuted). Missing: lock configurations with single callbacks absent.")
c("C95","partial","C95_call C95_no_effect C95_history C95_any_identity_refuted C95_inherited_refuted C95_short_refuted C95_info_padding_refuted","Proved: the calls (C95_call, C95_no_effect), and that over every history with whole claims the number in effect is the last one claimed (C95_history). Refuted: an open connection can take any other number at any time and keeps its logged-in user (C95_any_identity_refuted); a new connection has the number of the one before it until it claims its own (C95_inherited_refuted); a claim without a number takes the one lying in the packet buffer (C95_short_refuted); the answer to CommInfo ends with six bytes of an earlier packet (C95_info_padding_refuted). Missing: nothing of the calls; the retry loops are in C17.")
c("C96","partial","C96_request C96_query C96_alias_refuted C96_user_type_refuted C96_stale_refuted","Proved for numbers below 256 and for answers whose type is not mistaken (same byte order, or a user type that is not small when its bytes are reversed). Refuted: only the last byte of a number counts, so a query for 259 says registered and a request runs callback 3 (C96_alias_refuted); TranslateResponse picks the layout of the data after the type already swapped for the peer, so between machines of two byte orders the data of user type 0x03000000 are lost (C96_user_type_refuted; the DMA types are in C18_custom_reply_refuted); the answer to a query ends with eight bytes of an earlier packet (C96_stale_refuted). Missing: the data of the reserved types, which are not translated.")
c("C97","partial","C97_call C97_no_code C97_no_effect C97_unlocked C97_only_received C97_any_reply C97_add_then_read C97_silent_refuted C97_silent_read_refuted C97_short_refuted C97_padding_refuted","Proved for calls that ask for the server's code, and for packets that contain the id they act on. Refuted: with a NULL out_rc an erase the server refused returns 0 (C97_silent_refuted) and so does a read that wrote nothing because the buffer was too small (C97_silent_read_refuted); the erase and read actions do not check the size of the packet and act on the id an earlier packet left in the buffer (C97_short_refuted); the padding of a reply carries old buffer contents (C97_padding_refuted). The DMA calls are C98 and attribute certificates C99; the functions behind the packets are those of C43, C58 and C59 for the add and read theorem and arbitrary for the others.")
c("C98","partial","C98_call C98_no_effect C98_unmapped C98_only_received C98_wrong_size C98_add_then_read C98_length_refuted C98_silent_refuted C98_long_refuted","Refuted: a read by address does not tell the certificate's length, and nothing the caller gets determines it (C98_length_refuted); with a NULL out_rc a read the server refused returns 0 (C98_silent_refuted); in a build with certificates of more than 65535 bytes one that is added by address is cut and success is told (C98_long_refuted). Missing: a memory that changes while the server works on it (C43 shows what a verification then gets wrong); that a mapping is released is C74. The add and read theorem is for an NVM id and a certificate shorter than 65536 bytes, the functions behind the packets being those of CertModel.v; the others are for arbitrary functions.")
c("C99","proved","C99_verdict C99_told_only_accepted C99_no_verdict C99_any_packet","For a library whose code for a wrong signature is neither 0 nor NOTFOUND and whose codes have 32 bits, and an NVM whose object lengths are right. The memory a client hands over by address stands still while the server reads it.")
c("C100","partial","C100_block_exact C100_aligned_block C100_block_only C100_clear C100_delivered C100_data_aligned C100_conversation C100_extra_line_refuted C100_line_aligned_buffer C100_default_refuted C100_bounded","Delivery is proved for messages whose data need no extra line, which is every message when the data (not the control word) start a line. Refuted elsewhere: the block loops step from the given pointer and not from the start of its line, so a block that starts inside a line can end in a line that is neither flushed nor invalidated (C100_extra_line_refuted). With the default line of 32 bytes and a buffer that starts a line, the data start 8 bytes into it, and a message of 32 bytes arrives with success and its last 8 bytes stale (C100_default_refuted). Only ports that define the cache macros are concerned; a port can avoid it by defining XCACHEFLUSHBLK and XCACHEINVLDBLK itself. Messages go one way through one buffer; the two buffers lie in separate lines and the control word is little endian.")
c("C101","proved","C101_compare C101_credential C101_compare_range C101_same_reads C101_memeqzero C101_wipe C101_wiped_is_zero","The reads are those of the source: what a compiler makes of the loop, and the timing of one step, are outside the model. The models of authentication (C35, C55 and others) and of SHE take the comparison as equality, which C101_compare justifies.")
c("C102","partial","C102_send_request C102_send_response C102_receive C102_copied C102_refused C102_clear C102_accepts C102_small_buffer_refuted","Proved for buffers of at least 8 bytes. Refuted for smaller ones, which the transport accepts too: the room for data is computed as an unsigned difference that wraps, and a message of any length is written past the end of the buffer (C102_small_buffer_refuted). The receiving side guards against this size; the sending side does not.")
c("C103","partial","C103_one_line C103_line_says C103_read_back C103_bounded C103_silent C103_forged_refuted","Proved for entries whose texts contain no newline, whose file name has no colon and whose function name no closing bracket. Refuted without: an entry whose message contains a newline prints exactly what two entries print (C103_forged_refuted). printf is taken to print everything; its result is ignored by the code.")
