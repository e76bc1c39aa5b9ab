{
 "claims": [
  {
   "property": "C01",
   "status": "proved",
   "theorems": [
    "C01_live_handles_unique",
    "C01_creation_fresh_or_full"
   ],
   "note": "Every interleaving of atomic store operations; slot count any multiple of 32."
  },
  {
   "property": "C02",
   "status": "proved",
   "theorems": [
    "C02_store_refines_map"
   ],
   "note": "Refinement of the store to a partial map, over all histories."
  },
  {
   "property": "C03",
   "status": "proved",
   "theorems": [
    "C03_calls_use_caller_identity",
    "C03_only_creator_can_use",
    "C03_only_creator_can_destroy",
    "C03_release_matches_acquire",
    "C03_objects_come_from_own_calls"
   ],
   "note": "Use, release and destroy answers determined by the creator recorded in the history; every API call presents its own caller's identity and only works on the stores of its own client; in the whole system every object a call gets was stored by a call of the same caller and client."
  },
  {
   "property": "C04",
   "status": "proved",
   "theorems": [
    "C04_no_destroy_while_in_use",
    "C04_destroyed_never_used_again",
    "C04_destroyed_at_most_once"
   ],
   "note": "All interleavings; destroyed objects are never in use nor obtainable; each destroyed at most once."
  },
  {
   "property": "C05",
   "status": "partial",
   "theorems": [
    "C05_refused_after_shutdown",
    "C05_shutdown_complete",
    "C05_every_object_destroyed_once",
    "C05_shutdown_can_finish",
    "C05_store_freed_under_release_refuted"
   ],
   "note": "Refusal, completeness and ability to finish proved for all interleavings. Refuted for a release call that overlaps shutdown: the store is freed before the call reads its free function."
  },
  {
   "property": "C06",
   "status": "partial",
   "theorems": [
    "C06_call_settles_partial",
    "C06_unknown_buffer_type_leaks_refuted"
   ],
   "note": "Refuted for buffer-type values outside the enumeration: references and lock are kept. Proved for every other argument combination of these calls, and for all calls outside the listed exceptional situations."
  },
  {
   "property": "C07",
   "status": "partial",
   "theorems": [
    "C07_svp_copy_deadlock_refuted",
    "C07_no_deadlock_in_order_partial",
    "C07_no_deadlock_single_buffer_partial"
   ],
   "note": "Refuted by two opposite SVP copies. Proved when buffers are taken in a consistent order, in particular with one buffer per call."
  },
  {
   "property": "C08",
   "status": "proved",
   "theorems": [
    "C08_call_checks_flag",
    "C08_cipher_context_needs_rights",
    "C08_mac_context_needs_rights",
    "C08_flag_and_time_check_exact",
    "C08_cipher_check_exact",
    "C08_operation_checks_exact",
    "C08_encrypt_decrypt_exact",
    "C08_use_needs_flag"
   ],
   "note": "Check functions exact for all rights values; in every reachable state of the whole system, every use of key material has the flag, contexts made earlier and raced common encryption included."
  },
  {
   "property": "C09",
   "status": "partial",
   "theorems": [
    "C09_use_inside_window_partial",
    "C09_cenc_race_refuted",
    "C09_mac_untimed_refuted",
    "C09_export_untimed_refuted",
    "C09_window_check_exact"
   ],
   "note": "Window check exact; every use by an API call follows a clock reading of the same call inside the window. Refuted for export, MAC processing and raced common encryption."
  },
  {
   "property": "C10",
   "status": "partial",
   "theorems": [
    "C10_outputs_polled_each_call_partial",
    "C10_cenc_race_refuted",
    "C10_outputs_check_exact_partial",
    "C10_dtcp_output_not_gated_refuted"
   ],
   "note": "Refuted for DTCP outputs and for raced common encryption. Exact characterisation of the check; each processing call polls the outputs before using the key. The property is about symmetric keys; asymmetric decryption and MACs do not poll."
  },
  {
   "property": "C11",
   "status": "partial",
   "theorems": [
    "C11_use_needs_listing_partial",
    "C11_export_unlisted_refuted",
    "C11_identity_comparison_exact",
    "C11_allow_list_exact",
    "C11_user_is_listed_partial"
   ],
   "note": "Allow-list check exact; in every reachable state of the whole system the caller of every use is on the list, also for uses through contexts. Refuted for export."
  },
  {
   "property": "C12",
   "status": "partial",
   "theorems": [
    "C12_call_restricts_child_partial",
    "C12_root_key_rights",
    "C12_child_gains_output_flag_refuted",
    "C12_zero_child_flags_ignored_refuted",
    "C12_output_flags_inherited_partial",
    "C12_child_flags_applied_partial",
    "C12_nothing_added",
    "C12_rest_unchanged"
   ],
   "note": "Refuted for parents whose only usage is UNWRAP. Exact characterisation of both branches of the code, and every API call that makes a key from another applies it; other keys get exactly the requested rights."
  },
  {
   "property": "C13",
   "status": "proved",
   "theorems": [
    "C13_round_trip",
    "C13_export_works",
    "C13_only_cacheable"
   ],
   "note": "On bytes, for every device whose decryption undoes its encryption; LP64 layout of the header."
  },
  {
   "property": "C14",
   "status": "proved",
   "theorems": [
    "C14_in_bounds",
    "C14_authentic",
    "C14_accepts_exactly",
    "C14_determined"
   ],
   "note": "Exact: accepted iff authentic, for every byte string below 2^63 bytes."
  },
  {
   "property": "C15",
   "status": "partial",
   "theorems": [
    "C15_clear_output_needs_flag_partial",
    "C15_svp_output_algorithms",
    "C15_cenc_race_refuted"
   ],
   "note": "Refuted for common encryption raced with release and init. Proved for every other use, and secure output algorithms for all."
  },
  {
   "property": "C16",
   "status": "proved",
   "theorems": [
    "C16_clear_range_exact",
    "C16_svp_range_exact",
    "C16_svp_released_buffer_refused"
   ],
   "note": "Every 64-bit base, length, offset and count; accepted exactly when in range."
  },
  {
   "property": "C17",
   "status": "partial",
   "theorems": [
    "C17_write_exact",
    "C17_copy_exact_partial",
    "C17_copy_bounded_partial",
    "C17_copy_within_one_buffer_refuted"
   ],
   "note": "Write proved in full. Copy proved for buffers that do not overlap, and bounded for all; refuted for overlapping segments inside one buffer (undefined memcpy)."
  },
  {
   "property": "C18",
   "status": "partial",
   "theorems": [
    "C18_valid_range_recorded_partial",
    "C18_recorded_range_valid",
    "C18_wrapping_range_accepted_refuted"
   ],
   "note": "Refuted: wrapping ranges are accepted. Proved: a recorded range never wraps and is the one given."
  },
  {
   "property": "C19",
   "status": "partial",
   "theorems": [
    "C19_release_removes_partial",
    "C19_simultaneous_release_refuted"
   ],
   "note": "Refuted for two simultaneous releases. Proved otherwise."
  },
  {
   "property": "C20",
   "status": "partial",
   "theorems": [
    "C20_sample_decrypted_partial",
    "C20_four_gigabytes_refuted",
    "C20_pattern_wraps_refuted"
   ],
   "note": "Exact for all four schemes when ranges are below 2 GiB, pattern numbers below 2^60 and, in counter mode without a pattern, ranges well placed. Refuted for 4 GiB ranges and wrapping patterns."
  },
  {
   "property": "C21",
   "status": "partial",
   "theorems": [
    "C21_counter_partial",
    "C21_whole_blocks_well_placed",
    "C21_split_block_refuted",
    "C21_rollover_refuted"
   ],
   "note": "Exact for well placed ranges, roll-over included. Refuted for ranges that end in the block they begin in (counter 0) and for a roll-over after a split block."
  },
  {
   "property": "C22",
   "status": "partial",
   "theorems": [
    "C22_inside_and_ends_partial",
    "C22_counter_zero_refuted",
    "C22_last_counter_refuted",
    "C22_endless_refuted"
   ],
   "note": "For every failure pattern, under the same conditions. Refuted: out-of-bounds access for short ranges with counter 0 or near roll-over, endless loop for a wrapping pattern."
  },
  {
   "property": "C23",
   "status": "partial",
   "theorems": [
    "C23_failure_reported_partial",
    "C23_pattern_failure_lost_refuted"
   ],
   "note": "Exact without a pattern. Refuted with a pattern: an earlier failure is forgotten."
  },
  {
   "property": "C24",
   "status": "partial",
   "theorems": [
    "C24_accepted_iff_apart",
    "C24_refused_untouched",
    "C24_all_or_none",
    "C24_shared_buffer_refuted"
   ],
   "note": "Acceptance proved exact per sample; refused calls change nothing. Refuted for samples that share the output buffer."
  },
  {
   "property": "C25",
   "status": "proved",
   "theorems": [
    "C25_length_exact"
   ],
   "note": ""
  },
  {
   "property": "C26",
   "status": "proved",
   "theorems": [
    "C26_check_exact",
    "C26_pad_then_strip",
    "C26_apply_is_pkcs7",
    "C26_padded_length",
    "C26_padded_size_next"
   ],
   "note": "All messages and all final blocks."
  },
  {
   "property": "C27",
   "status": "proved",
   "theorems": [
    "C27_every_route",
    "C27_creation_iff_allowed",
    "C27_created_key_allowed",
    "C27_used_keys_allowed"
   ],
   "note": "Creation succeeds exactly for allowed sizes and terminated identifiers; every API call that stores a key respects it, and so does every key used in the whole system."
  },
  {
   "property": "C28",
   "status": "proved",
   "theorems": [
    "C28_value",
    "C28_available",
    "C28_data_accepted",
    "C28_length_query",
    "C28_small_buffer",
    "C28_refused_after",
    "C28_in_bounds"
   ],
   "note": "Over every history of calls on one context; a MAC delivered after OpenSSL failed an update is outside."
  },
  {
   "property": "C29",
   "status": "proved",
   "theorems": [
    "C29_hkdf",
    "C29_concat",
    "C29_x963",
    "C29_cmac",
    "C29_hkdf_accepted",
    "C29_concat_accepted",
    "C29_x963_accepted",
    "C29_cmac_accepted"
   ],
   "note": "On bytes, for any digest and AES-CMAC of the standard lengths."
  },
  {
   "property": "C30",
   "status": "proved",
   "theorems": [
    "C30_exchange_all_or_nothing"
   ],
   "note": "Every failure point; on failure each key made has been removed again (or its removal answered by the store)."
  },
  {
   "property": "C31",
   "status": "proved",
   "theorems": [
    "C31_handle_iff_success"
   ],
   "note": "Every request and failure, for each creation call that makes one key."
  },
  {
   "property": "C32",
   "status": "partial",
   "theorems": [
    "C32_in_bounds_partial",
    "C32_in_bounds_refuted",
    "C32_value_partial"
   ],
   "note": "Bounds proved for every non-empty input, value for inputs below 2 GiB; refuted for the empty input, which is always read out of bounds."
  },
  {
   "property": "C33",
   "status": "partial",
   "theorems": [
    "C33_failed_init_leaves_nothing_partial",
    "C33_key_freed_twice_refuted"
   ],
   "note": "Refuted: OAEP label failure after the context is stored frees the key twice. Proved outside that situation."
  },
  {
   "property": "C34",
   "status": "partial",
   "theorems": [
    "C34_library",
    "C34_commands_partial",
    "C34_header_refuted",
    "C34_import_soc_refuted",
    "C34_derive_refuted",
    "C34_derive_short_refuted",
    "C34_process_refuted",
    "C34_process_null_refuted",
    "C34_process_short_refuted",
    "C34_key_check_refuted",
    "C34_cenc_refuted",
    "C34_provision_refuted",
    "C34_handler_refuted"
   ],
   "note": "Every step of every run is allowed for all commands under per-command conditions on the caller (none for 30 of them). The requests of the client library meet them when the structure is not modified (C34_library). Refuted without them: stack overflow in SoC import and key derivation, heap overflow in common encryption, NULL write in key header, wild reads in provisioning, short and wrongly typed buffers in cipher processing and SVP key check."
  },
  {
   "property": "C35",
   "status": "partial",
   "theorems": [
    "C35_fetched_once_partial",
    "C35_elgamal_refuted"
   ],
   "note": "The marshalling layer reads or hands over each shared byte at most once, except EC ElGamal unwrapping (refuted) and provisioning. Re-reading by the implementation of payloads handed over is not covered."
  },
  {
   "property": "C36",
   "status": "partial",
   "theorems": [
    "C36_output_left_undefined_refuted",
    "C36_garbage_accepted_refuted",
    "C36_uuid_text_converted_partial",
    "C36_hyphenated_text_sound_partial",
    "C36_reads_in_bounds",
    "C36_wrong_length_refused"
   ],
   "note": "Refuted: accepts text that is no UUID and may leave output bytes unset. Proved: every UUID text converts to its bytes; with hyphens in the standard places only UUIDs are accepted; reads stay in bounds."
  },
  {
   "property": "C37",
   "status": "partial",
   "theorems": [
    "C37_release_destroys_other_object_refuted"
   ],
   "note": "Refuted: counterexample theorem with slot reuse between two release calls."
  },
  {
   "property": "C38",
   "status": "proved",
   "theorems": [
    "C38_usage_word_exact",
    "C38_unknown_usage_word_refused"
   ],
   "note": "All usage words, key types, subtypes and flag words."
  },
  {
   "property": "C39",
   "status": "proved",
   "theorems": [
    "C39_release_removes"
   ],
   "note": ""
  },
  {
   "property": "C40",
   "status": "partial",
   "theorems": [
    "C40_calls_in_order_partial",
    "C40_null_buffer_refuted",
    "C40_nothing_undefined_partial",
    "C40_freed_twice_refuted",
    "C40_held_objects_stay_partial"
   ],
   "note": "Refuted for svp_buffer_check racing with release and for releases of the same handle racing. Proved for all calls outside the listed exceptional situations, per call and for the whole system in every interleaving."
  },
  {
   "property": "C41",
   "status": "partial",
   "theorems": [
    "C41_exhausted_memory_refuted",
    "C41_storing_partial",
    "C41_exporting_partial"
   ],
   "note": "Refuted: a failed allocation of the padded key leads to a NULL write in the clean-up. No other failure crashes."
  },
  {
   "property": "C42",
   "status": "proved",
   "theorems": [
    "C42_cipher_key_fits",
    "C42_mac_key_fits"
   ],
   "note": "At every step of every call that stores a cipher or MAC context."
  },
  {
   "property": "C43",
   "status": "partial",
   "theorems": [
    "C43_wrapping",
    "C43_wrapping_accepted",
    "C43_shared_secret_partial",
    "C43_shared_secret_refuted"
   ],
   "note": "Wrapping key exact. Shared-secret keys exact for secrets with at most one leading zero byte; refuted for two."
  },
  {
   "property": "C44",
   "status": "partial",
   "theorems": [
    "C44_value_partial",
    "C44_accepted",
    "C44_value_refuted",
    "C44_authentic_refuted",
    "C44_freed_refuted"
   ],
   "note": "Exact below 2 GiB of input and associated data. Refuted: from 4 GiB on only part is decrypted or authenticated; an OAEP label that is NULL with a length leaks the plaintext buffer."
  },
  {
   "property": "C45",
   "status": "partial",
   "theorems": [
    "C45_reaches_partial",
    "C45_incomplete_refused",
    "C45_svp_write_repeats",
    "C45_svp_write_refuted",
    "C45_unwrap_without_aad_refuted",
    "C45_samples_in_order",
    "C45_samples_all_done",
    "C45_samples_undone_refuted"
   ],
   "note": "All 34 functions; common encryption with any number of samples and shared buffers (C45_samples_*); provisioning left out. Refuted: a call refused for a later sample has decrypted the earlier ones; sa_svp_buffer_write sends its first table entry for every entry; unwrapping in authenticated modes without associated data is always refused."
  },
  {
   "property": "C46",
   "status": "partial",
   "theorems": [
    "C46_asymmetric",
    "C46_encrypts_partial",
    "C46_decrypts_partial",
    "C46_running_partial",
    "C46_refused_partial",
    "C46_round_trip_partial",
    "C46_round_trip_running_partial",
    "C46_update_iv_partial",
    "C46_failure_reported",
    "C46_last_failure_reported",
    "C46_long_refuted",
    "C46_large_refused",
    "C46_large_last_refused"
   ],
   "note": "Exact for all sequences of pieces below 2 GiB, all eight symmetric algorithms; failures of the library are always reported. Refuted from 4 GiB on: everything is consumed, a part comes out. RSA and ElGamal decryption: C46_asymmetric, in full."
  },
  {
   "property": "C47",
   "status": "partial",
   "theorems": [
    "C47_writes_inside_partial",
    "C47_last_writes_inside_partial",
    "C47_padded_decrypt_corrupts",
    "C47_writes_inside_refuted",
    "C47_after_last_refuted"
   ],
   "note": "Proved for encryption, unpadded and last calls. Refuted: a padded decryption overruns a buffer of the documented size with OpenSSL versions that write the block they hold back, and a second last call can overrun its buffer."
  },
  {
   "property": "C48",
   "status": "partial",
   "theorems": [
    "C48_bad_text_refused_partial",
    "C48_never_verification_failed",
    "C48_verification_status_refuted",
    "C48_second_last_accepted",
    "C48_second_last_refuted",
    "C48_stream_last_lengths",
    "C48_last_symmetric_refuted"
   ],
   "note": "Wrong padding and tags are always refused. Refuted: the status is never VERIFICATION_FAILED; stream ciphers accept a second last call; last pieces over 16 bytes are encrypted but not decrypted by CTR and ChaCha20."
  },
  {
   "property": "C49",
   "status": "partial",
   "theorems": [
    "C49_parse",
    "C49_lookup",
    "C49_exhausted_refuted",
    "C49_nameless_refuted",
    "C49_recursion_refuted"
   ],
   "note": "Tree and lookup are exact when memory suffices. Refuted: with failing allocations array elements and names are dropped without an error, and releasing an array of n elements takes more than n nested calls."
  },
  {
   "property": "C50",
   "status": "partial",
   "theorems": [
    "C50_genuine",
    "C50_accepted",
    "C50_usage_type_refuted",
    "C50_expiry_refuted",
    "C50_ta_text_refuted",
    "C50_leftover_refuted"
   ],
   "note": "Sound for every container and complete for every genuine one in padded base64; toy and real libraries alike are parameters. Refuted: a usage of another type means every usage, a time of -1 never expires, malformed TA identifiers are accepted, unpadded base64 is completed from old memory."
  },
  {
   "property": "C51",
   "status": "partial",
   "theorems": [
    "C51_soc_partial",
    "C51_soc_iv_refuted",
    "C51_soc_ladder_refuted",
    "C51_soc_tas_refuted",
    "C51_soc_type_refuted",
    "C51_soc_key_refuted",
    "C51_soc_overread_refuted",
    "C51_typej_partial",
    "C51_typej_header_refuted",
    "C51_typej_key_refuted",
    "C51_typej_iv_refuted",
    "C51_typej_tas_refuted"
   ],
   "note": "Proved for Type-J containers whose base64 texts decode and whose fields have the right types. Refuted: a header that is not base64 is freed twice before the MAC is checked; content key and TA list likewise in genuine containers. For SoC containers: proved for tidy ones (C51_soc_partial); refuted, without any key, by a long IV, a long ladder input, more than 32 TAs, a long key type (stack and heap overruns), a key that is not base64 (freed twice), and by the comparison of key type names beyond their end."
  },
  {
   "property": "C52",
   "status": "partial",
   "theorems": [
    "C52_genuine",
    "C52_sealed",
    "C52_accepted",
    "C52_short_tag_refuted"
   ],
   "note": "Sound for every container, sealed by the provisioner under unforgeability, complete for documented ones. Refuted: tags may be cut to a single byte, so one of 256 forged containers with usage and TAs of the forger's choice is imported."
  },
  {
   "property": "C53",
   "status": "partial",
   "theorems": [
    "C53_sound_partial",
    "C53_complete_partial",
    "C53_size",
    "C53_short",
    "C53_unchanged",
    "C53_pss_refuted",
    "C53_odd_refuted"
   ],
   "note": "Sound and complete for every scheme, key and message; the size query is exact. Refuted: with RSA-PSS every failure inside the library call, and a precomputed digest of the wrong length, is reported as success with no signature; RSA keys whose bits are no multiple of 8 never sign into a buffer of the announced size."
  },
  {
   "property": "C54",
   "status": "proved",
   "theorems": [
    "C54_public",
    "C54_size",
    "C54_unchanged"
   ],
   "note": "Exact, both ways, over any library."
  },
  {
   "property": "C55",
   "status": "partial",
   "theorems": [
    "C55_agrees",
    "C55_same",
    "C55_pad_refuted"
   ],
   "note": "Exact condition for success, and both parties obtain the same secret. Refuted: if padding cannot be switched on a DH exchange leaks and reports a NULL parameter. The Netflix exchange is in C43 (M_Kdf.v)."
  },
  {
   "property": "C56",
   "status": "partial",
   "theorems": [
    "C56_generated",
    "C56_usable",
    "C56_defined_partial",
    "C56_modulus_refuted"
   ],
   "note": "Exact condition for success and what the key is. Refuted: moduli from 2^28 bytes overflow a signed int before they are refused."
  },
  {
   "property": "C57",
   "status": "partial",
   "theorems": [
    "C57_accepts",
    "C57_encrypts_partial",
    "C57_decrypts_partial",
    "C57_round_trip_partial",
    "C57_lost",
    "C57_lost_refuted",
    "C57_failure_partial",
    "C57_failure_refuted",
    "C57_padding_as_asked",
    "C57_padding_never_asked"
   ],
   "note": "Whole-message encryption, decryption and round trip for every division in which no piece leaves a rest incomplete a second time. Refuted otherwise: of two such pieces the first is silently lost. A failing call below followed by a successful one in the same update is reported as success."
  },
  {
   "property": "C58",
   "status": "partial",
   "theorems": [
    "C58_seals_partial",
    "C58_opens_partial",
    "C58_more_aad_ignored",
    "C58_more_aad_refuted",
    "C58_null_final",
    "C58_null_final_refuted",
    "C58_short_tag_refuted"
   ],
   "note": "Exact for associated data in one call, tags of 16 bytes and a final call with an output buffer. Refuted: further calls with associated data are ignored; a final call with out = NULL succeeds whatever the tag; right tags of fewer than 16 bytes are refused."
  },
  {
   "property": "C59",
   "status": "partial",
   "theorems": [
    "C59_ready_partial",
    "C59_stream_ciphers",
    "C59_leftover",
    "C59_leftover_refuted"
   ],
   "note": "Re-initialised contexts are ready with the new vector; proved for stream ciphers and wherever no bytes wait. Refuted: the incomplete block of a message, even one completed by padding, is prepended to the next message."
  },
  {
   "property": "C60",
   "status": "partial",
   "theorems": [
    "C60_others",
    "C60_kept_partial",
    "C60_released_partial",
    "C60_same_key_lost",
    "C60_twice_refuted",
    "C60_replaced_refuted",
    "C60_inherited_refuted",
    "C60_stale_refuted",
    "C60_leak_refuted",
    "C60_mac_others",
    "C60_mac_kept_partial",
    "C60_mac_released_partial",
    "C60_mac_same_key_lost",
    "C60_mac_twice_refuted"
   ],
   "note": "Other keys are never touched (under fresh handles); own keys are kept and imported keys released as long as the context has one key. Refuted: replacing a key releases the application's, SA_KEY after a clear key inherits the ownership, SA_KEY twice destroys the key, a failed import leaves a stale handle that is released later, a failed key header leaks the imported key."
  },
  {
   "property": "C61",
   "status": "proved",
   "theorems": [
    "C61_key_handle_fixed",
    "C61_cipher_context_fixed",
    "C61_mac_context_fixed"
   ],
   "note": "Invariant of all reachable states of the system of concurrent calls: what is read under a handle is what its maker stored."
  },
  {
   "property": "C62",
   "status": "proved",
   "theorems": [
    "C62_only_named_objects"
   ],
   "note": "All paths of all calls."
  },
  {
   "property": "C63",
   "status": "partial",
   "theorems": [
    "C63_one_owner_partial",
    "C63_nothing_dangles_partial",
    "C63_counts_add_up_partial",
    "C63_stores_of_clients_partial",
    "C63_at_rest_partial",
    "C63_all_closed_partial",
    "C63_lock_left_refuted"
   ],
   "note": "Proved for every interleaving of calls outside the listed exceptional situations (calm_system); refuted in general: a call with a buffer of unknown type leaves a lock and references."
  },
  {
   "property": "C64",
   "status": "partial",
   "theorems": [
    "C64_some_call_goes_on_partial",
    "C64_no_endless_run",
    "C64_all_calls_return_partial",
    "C64_copies_stuck_refuted"
   ],
   "note": "Proved for every system of calls outside calm_system's exceptions whose calls take two buffers in a common order; refuted by two opposite buffer copies."
  },
  {
   "property": "C65",
   "status": "partial",
   "theorems": [
    "C65_valid_partial",
    "C65_announced_partial",
    "C65_complete_partial",
    "C65_accepts",
    "C65_round_trip_partial",
    "C65_once",
    "C65_edwards",
    "C65_identifier_partial",
    "C65_mgf1_refuted",
    "C65_other_digest_refuted",
    "C65_small_buffer_refuted",
    "C65_pss_overruns_refuted",
    "C65_odd_overruns_refuted",
    "C65_init_refuted",
    "C65_padding_refuted",
    "C65_identifier_sha1_refuted",
    "C65_identifier_pss_refuted",
    "C65_identifier_crash_refuted"
   ],
   "note": "Proved for the digests of the API, with PSS when the digest of MGF1 is set; refuted otherwise: other digests are silently replaced by SHA-256, the provider rejects its own PSS signatures when no MGF1 digest is set, the caller's buffer size is ignored and even the announced size is overrun, failed initialisations answer 1, identifiers of SHA-1 and PSS are wrong. EVP_MD_fetch and parameter strings are inputs of the model."
  },
  {
   "property": "C66",
   "status": "partial",
   "theorems": [
    "C66_encrypts_partial",
    "C66_decrypts_partial",
    "C66_round_trip_partial",
    "C66_parameters",
    "C66_mgf1_refuted",
    "C66_default_refuted",
    "C66_no_padding_refuted",
    "C66_padding_name_refuted",
    "C66_digest_lost_refuted",
    "C66_copy_refuted"
   ],
   "note": "Proved for PKCS#1 v1.5 and for OAEP with a set digest of the API whose MGF1 digest is the same; refuted otherwise: the MGF1 digest is ignored, with default digests nothing can be decrypted, no padding and unknown paddings decrypt as PKCS#1 v1.5, copies of contexts crash, fail or have a garbage label."
  },
  {
   "property": "C67",
   "status": "partial",
   "theorems": [
    "C67_safe_partial",
    "C67_kept_partial",
    "C67_nothing_left_partial",
    "C67_copy_empty_refuted",
    "C67_copy_undigested_refuted",
    "C67_use_empty_refuted",
    "C67_failed_init_refuted",
    "C67_peer_twice_refuted",
    "C67_failed_import_refuted",
    "C67_kept_import_refuted",
    "C67_import_over_refuted",
    "C67_match_refuted"
   ],
   "note": "Proved for every history that neither copies nor uses contexts that are not set up (safety), imports no key over another (private keys), sets contexts up once and succeeds in it (nothing left). Refuted otherwise: copies of contexts crash or are freed memory, failed initialisations answer success and crash later, a peer set twice and failed imports leak keys, an import over another releases the application's key, all keys match."
  },
  {
   "property": "C68",
   "status": "partial",
   "theorems": [
    "C68_derives_partial",
    "C68_accepted_partial",
    "C68_keys_kept_partial",
    "C68_no_parameters_refuted",
    "C68_copy_refuted",
    "C68_cmac_long_refuted",
    "C68_cmac_block_refuted",
    "C68_cmac_length_refuted",
    "C68_switch_refuted",
    "C68_second_key_refuted",
    "C68_same_key_refuted",
    "C68_copy_key_refuted",
    "C68_copy_crash_refuted",
    "C68_reset_digest_refuted",
    "C68_reset_salt_refuted",
    "C68_digest_refuted",
    "C68_short_key_refuted"
   ],
   "note": "Proved for every life of a context with well-formed parameters: values for HKDF, CONCAT and X9.63 always and for CMAC with one block and without the length; acceptance without resets; lifetimes with one key per context. Refuted otherwise: derivations without parameters and by copies always fail, CMAC yields the wrong blocks for 32 bytes and nothing above, counts the length in bytes and overruns its buffer for switches other than 0 and 1, a second key releases the first, a copy releases handle 0, copying after a reset crashes, resets keep digest and lengths, digests are recognised by prefix. OSSL_PARAM functions are inputs of the model."
  },
  {
   "property": "C69",
   "status": "partial",
   "theorems": [
    "C69_digest_of_the_data",
    "C69_digest_given",
    "C69_nothing_left",
    "C69_no_stale_context",
    "C69_within_the_buffer_partial",
    "C69_copy_overruns_refuted",
    "C69_listed_parameters_refuted"
   ],
   "note": "Values, acceptance and lifetimes proved for all histories; the library's treatment of contexts that are not running is free. Refuted: a copy writes its digest into a buffer of any size; readable and writable parameters are announced the wrong way round."
  },
  {
   "property": "C70",
   "status": "partial",
   "theorems": [
    "C70_output_partial",
    "C70_output_given",
    "C70_tag",
    "C70_verified",
    "C70_verified_full",
    "C70_final_given",
    "C70_key_checked",
    "C70_init_given",
    "C70_nothing_left",
    "C70_no_crash_partial",
    "C70_again_with_a_vector_refuted",
    "C70_again_the_other_way_refuted",
    "C70_vector_kept_refuted",
    "C70_vector_gone_refuted",
    "C70_pieces_refuted",
    "C70_failure_told_refuted",
    "C70_tag_too_early_refuted",
    "C70_tag_negative_refuted",
    "C70_tag_set_negative_refuted",
    "C70_short_tag_refuted",
    "C70_copied_refuted",
    "C70_no_memory_refuted",
    "C70_no_tag_refuted"
   ],
   "note": "Proved for every history: nothing held after closing; for contexts used with care (one message each, memory left alone until the first data, associated data in one piece, not copied), whatever other contexts do: output, tags, refusal of wrong tags, acceptance, absence of undefined behaviour. Refuted: a new vector or direction for a context at work is ignored, the vector is read when the first data come, further associated data are ignored, failures of non-AEAD ciphers read as success, tags before the end are uninitialised memory, genuine short tags are refused, copies free twice. OpenSSL's own buffering and padding is not modelled."
  },
  {
   "property": "C71",
   "status": "partial",
   "theorems": [
    "C71_one_engine",
    "C71_same_method",
    "C71_alone_partial",
    "C71_answers_in_order",
    "C71_engine_for_one_thread_refuted",
    "C71_others_blocked_refuted",
    "C71_others_never_return_refuted",
    "C71_failure_keeps_lock_refuted",
    "C71_digest_method_refuted"
   ],
   "note": "Proved for all schedules and failures: at most one engine, one method per cipher and key type, answers in order; and for programs with one thread that every call returns what was asked for. Refuted: the thread that makes the engine keeps the lock for good (the list of ASN.1 methods returns without unlocking), so no other thread ever gets the engine or a method; a failure keeps the lock too; two threads can get different methods for a digest. Not modelled: freeing the engine at exit, memory ordering below the mutex."
  },
  {
   "property": "C72",
   "status": "partial",
   "theorems": [
    "C72_value_partial",
    "C72_kept_apart",
    "C72_init_accepted",
    "C72_other_digests_refused",
    "C72_nothing_left_partial",
    "C72_crossed_refuted",
    "C72_copy_refuted",
    "C72_read_once_refuted",
    "C72_initialised_again_refuted"
   ],
   "note": "Values, sizes and acceptance proved for all histories without copies in which no new MAC gets a handle another context still holds (three sufficient conditions proved: contexts marked with the FINALISE flag, contexts freed as soon as they are read, or handles never used again); lifetimes with one initialisation between resets. Refuted otherwise: contexts in use at the same time can compute MACs under each other's key and data, copies share their MAC, no data can follow a reading, a second initialisation leaks the first MAC. OpenSSL's calls around the engine are modelled from its 1.1.1 source; NULL data is left out."
  },
  {
   "property": "C73",
   "status": "partial",
   "theorems": [
    "C73_sign_pkcs1",
    "C73_sign_pss_partial",
    "C73_sign_ec",
    "C73_sign_only",
    "C73_settings",
    "C73_refused_keeps",
    "C73_verify",
    "C73_oaep_partial",
    "C73_pkcs1",
    "C73_labels_freed_partial",
    "C73_nothing_lost_partial",
    "C73_nothing_open_partial",
    "C73_rsa_room",
    "C73_derive_room",
    "C73_ec_room",
    "C73_no_room_refuted",
    "C73_announced_refuted",
    "C73_mgf1_default_refuted",
    "C73_unpadded_refuted",
    "C73_other_digest_refuted",
    "C73_label_refuted",
    "C73_left_refuted",
    "C73_salt_refuted"
   ],
   "note": "Requests for signatures, verification, encryption and decryption proved for all histories of contexts, with labels; room for RSA signatures and DH secrets, and that the announced length suffices for every ECDSA signature. Refuted: EC signatures and secrets are written without regard to the room; the length announced for a DH secret is not that written; the mask digest defaults to SHA-1; paddings other than OAEP decrypt as PKCS #1 v1.5; OAEP with other digests encrypts what cannot be decrypted; a second label, a failed copy and an unsupported operation leak; meaningless salt lengths are accepted. What OpenSSL and the secure API compute is not modelled here; one purpose per context."
  },
  {
   "property": "C74",
   "status": "partial",
   "theorems": [
    "C74_secret_found",
    "C74_other_secret_refuted",
    "C74_root_found_partial",
    "C74_common_found_partial",
    "C74_proper_partial",
    "C74_root_stays",
    "C74_order_refuted",
    "C74_common_as_root_refuted",
    "C74_two_safes_refuted",
    "C74_long_key_refuted",
    "C74_other_safe_refuted",
    "C74_no_secret_refuted",
    "C74_refused_once_refuted",
    "C74_threads_refuted"
   ],
   "note": "The scan for the secret is proved for every secret bag; keys and id for keystores with one safe whose names do not grow, and for all histories with a proper keystore; stability of the root key for all histories. Refuted: other orders, several safes, 256-bit keys, safes of other types, bags without secret and threads give no key, the wrong key, an empty key or undefined behaviour, and what is refused once is given the next time. PKCS #12 decoding and decryption are OpenSSL's and not modelled; friendly names are bytes."
  },
  {
   "property": "C75",
   "status": "partial",
   "theorems": [
    "C75_one_session_partial",
    "C75_never_refused_partial",
    "C75_holder_moves",
    "C75_call_served",
    "C75_work_undisturbed",
    "C75_exit_waits_for_work_only",
    "C75_exit_clean_partial",
    "C75_exit_quiet",
    "C75_refused_after_exit",
    "C75_stale_session_refuted",
    "C75_stale_store_refuted",
    "C75_session_left_refuted",
    "C75_store_closed_first_refuted"
   ],
   "note": "Proved for all threads and schedules up to exit(); at exit() calls at work are undisturbed and waited for, and nothing is left if no thread is between getting the session and being at work and none begins a call. Refuted for the other moments: freed sessions and stores are used, a session opened between the two handlers is never closed, and a first call during exit() closes after the store. Accesses to the session variable are single steps; the weak memory of its unlocked reading is not modelled."
  },
  {
   "property": "C76",
   "status": "partial",
   "theorems": [
    "C76_success_sound",
    "C76_exact_partial",
    "C76_nothing_left_partial",
    "C76_refused_early",
    "C76_unsupported_kinds",
    "C76_no_memory_refuted",
    "C76_short_structure_refuted",
    "C76_long_parameters_refuted",
    "C76_wrong_model_refuted",
    "C76_other_key_lost_refuted"
   ],
   "note": "Soundness for every call; exactness for proper structures and parameters of at most the reference size; no key left or lost for every call that does not go wrong, if clients can be acquired and no pointer is cleared meanwhile. Refuted: a failed allocation reads through NULL, structures shorter than their kind are read beyond their end, extended parameters overrun the stack, unknown model types are accepted, and a pointer cleared during the call makes it release another thread's key. Opening a container is C51 and C52; the build with shared memory is not modelled."
  },
  {
   "property": "C77",
   "status": "partial",
   "theorems": [
    "C77_asked_partial",
    "C77_kinds_partial",
    "C77_import_safe_partial",
    "C77_bits_refuted",
    "C77_refused_changes_refuted",
    "C77_init_refuted",
    "C77_other_curve_refuted",
    "C77_other_type_refuted",
    "C77_dh_group_refuted",
    "C77_dh_template_refuted",
    "C77_import_wild_refuted",
    "C77_has_refuted"
   ],
   "note": "proved for careful histories: moduli of whole bytes, curves by names in the table and for EC only, imported keys of the object's type, no imported DH parameters as templates, numbers that can be read and of at most 512 bytes; refuted otherwise: bits are cut to bytes, a refused name spoils the context, initialisation ignores bad parameters, a curve's name is taken for X25519 and for DH where it overwrites bytes of the prime, imported DH primes are reversed, handles of other types are accepted, too large primes are written out of bounds and unreadable generators cause a double free, objects with only a public key deny having it"
  },
  {
   "property": "C78",
   "status": "partial",
   "theorems": [
    "C78_tag_partial",
    "C78_size_partial",
    "C78_read_once",
    "C78_nothing_left",
    "C78_own_key_partial",
    "C78_init_accepted",
    "C78_unlisted_refused_partial",
    "C78_truncated_refuted",
    "C78_no_digest_refuted",
    "C78_refused_setting_refuted",
    "C78_later_digest_refuted",
    "C78_shared_key_refuted",
    "C78_other_key_refuted",
    "C78_same_key_refuted",
    "C78_digests_freed_refuted"
   ],
   "note": "proved when handles of keys are not used again and for digests other than SHA-512/224 and SHA-512/256; refuted otherwise: these two are taken for SHA-512, initialising HMAC without a digest reads NULL (a refused digest leads there), a digest set later changes the announced size only, setting a key releases the one before even if it is the application's, the same one, or in use by another context, whose MACs may then be under another key, digests fetched are not freed when replaced"
  },
  {
   "property": "C79",
   "status": "partial",
   "theorems": [
    "C79_no_harm_partial",
    "C79_whole_buffers",
    "C79_given_back_partial",
    "C79_kept_partial",
    "C79_nothing_left_partial",
    "C79_failed_alloc",
    "C79_alloc_given",
    "C79_wrapping_refuted",
    "C79_unchecked_refuted"
   ],
   "note": "proved for applications that make buffers of their own memory only, and without condition for those that only allocate and free whole buffers; refuted otherwise: a range that wraps yields a handle without buffer whose release gives an address nobody wrote, memory can be made into two buffers, into a larger buffer, or freed under a buffer"
  },
  {
   "property": "C80",
   "status": "partial",
   "theorems": [
    "C80_no_harm_partial",
    "C80_handle_partial",
    "C80_load",
    "C80_load_symmetric",
    "C80_failed_partial",
    "C80_nothing_left_partial",
    "C80_no_memory_refuted",
    "C80_own_key_refuted",
    "C80_no_engine_refuted"
   ],
   "note": "proved while there is memory and structures of libcrypto fit 512 bytes, for keys with one holder; refuted otherwise: without memory, or when the engine cannot be attached, a load answers an unusable key as if it had succeeded, the old structure is lost, and keys not loaded through the engine are read past their end"
  },
  {
   "property": "C81",
   "status": "partial",
   "theorems": [
    "C81_value_partial",
    "C81_given_partial",
    "C81_agree_partial",
    "C81_usable_partial",
    "C81_refused_keeps",
    "C81_empty_refuted",
    "C81_again_refuted"
   ],
   "note": "proved when the secure API does not give a handle again that a context has, for contexts with both keys; refuted otherwise: deriving or copying without one of the keys reads through NULL, a handle given again is taken for the key; a failing second encoding of the public key is not modelled"
  },
  {
   "property": "C82",
   "status": "partial",
   "theorems": [
    "C82_one_context",
    "C82_usable_partial",
    "C82_can_finish_partial",
    "C82_failure_refuted"
   ],
   "note": "one context at most: proved for every schedule and failure; usable and answered: proved when nothing fails; refuted when one of the loading calls fails: the mutex stays locked, the loading thread is given a context without the provider, all others wait for ever; mtx failures and process exit not modelled"
  },
  {
   "property": "C83",
   "status": "partial",
   "theorems": [
    "C83_name_partial",
    "C83_name_refused",
    "C83_name_given",
    "C83_asked_then_read",
    "C83_length_set_refuted",
    "C83_rest_refuted",
    "C83_info",
    "C83_memory_partial",
    "C83_memory_refuted"
   ],
   "note": "proved but for three deviations, which are refuted: the length is not set to what is required when more memory is given; with shared memory the rest of the memory is overwritten by what was in it; a failed sa_get_device_id loses its command's memory"
  },
  {
   "property": "C84",
   "status": "partial",
   "theorems": [
    "C84_given_back_partial",
    "C84_header_refuted",
    "C84_provision_refuted",
    "C84_samples_partial",
    "C84_samples_skipped_refuted"
   ],
   "note": "proved for every function and both builds but for three deviations, refuted here or in C83: sa_key_header never gives back its parameter with shared memory, sa_key_provision uses its command after it could not be had, a failed sa_get_device_id; common encryption proved as long as memory for parameters is had, and refuted otherwise: with shared memory the macro's continue goes on with the next sample, so that samples are left out, their memory is lost and the call still says success"
  },
  {
   "property": "C85",
   "status": "partial",
   "theorems": [
    "C85_lengths_partial",
    "C85_implementation_32_refuted",
    "C85_application_32_refuted",
    "C85_offsets_partial",
    "C85_offsets_cut_refuted"
   ],
   "note": "lengths: proved for 64 bits on both sides and refuted otherwise (an implementation with 32 bits refuses every sample with subsamples, an application with 32 bits has its own table sent and twice its size read); offsets: proved for all values the implementation's size_t holds, larger ones are cut"
  },
  {
   "property": "C86",
   "status": "partial",
   "theorems": [
    "C86_filled_partial",
    "C86_nothing_asked",
    "C86_unsupported_refuted",
    "C86_large_refuted",
    "C86_negative_refuted",
    "C86_key_partial",
    "C86_key_unsupported_refuted"
   ],
   "note": "proved below 2^31 bytes for a generator that works or fails; refuted for one that is not supported (-1 is taken for success, so that keys consist of what memory held) and for 2^31 bytes and more (the length is converted to int)"
  }
 ]
}