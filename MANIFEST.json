{
 "claims": [
  {
   "property": "C01",
   "status": "proved",
   "theorems": [
    "C01_integer_codec_roundtrip",
    "C01_u24_new_panics_iff"
   ],
   "note": ""
  },
  {
   "property": "C02",
   "status": "proved",
   "theorems": [
    "C02_reader_history",
    "C02_reader_step"
   ],
   "note": ""
  },
  {
   "property": "C03",
   "status": "proved",
   "theorems": [
    "C03_writer_history",
    "C03_writer_succeeds_iff_fits"
   ],
   "note": ""
  },
  {
   "property": "C04",
   "status": "proved",
   "theorems": [
    "C04_enum_read_total_and_preserving",
    "C04_enum_write_read",
    "C04_enum_collision"
   ],
   "note": "generic in the macro table; the collision exception named in the property is proved to be real"
  },
  {
   "property": "C05",
   "status": "proved",
   "theorems": [
    "C05_status_roundtrip",
    "C05_status_decode_lossless",
    "C05_status_reserved_rejected",
    "C05_status_severity_rejected",
    "C05_status_injective_refuted"
   ],
   "note": "injectivity holds except for source 0, exactly as the property says; the exception is witnessed"
  },
  {
   "property": "C06",
   "status": "proved",
   "theorems": [
    "C06_mctp_roundtrip",
    "C06_mctp_app_roundtrip",
    "C06_mctp_encap_fails_iff",
    "C06_mctp_decap_exact",
    "C06_mctp_decap_app_exact"
   ],
   "note": ""
  },
  {
   "property": "C07",
   "status": "proved",
   "theorems": [
    "C07_pcidoe_roundtrip",
    "C07_pcidoe_decap_accepts_only",
    "C07_pcidoe_decap_truncated_rejected",
    "C07_pcidoe_app_flag_refuted"
   ],
   "note": "up-to-padding round trip as stated; C07_pcidoe_app_flag_refuted records that encap_app/decap_app of this transport lose the app flag"
  },
  {
   "property": "C08",
   "status": "proved",
   "theorems": [
    "C08_connection_messages_roundtrip"
   ],
   "note": ""
  },
  {
   "property": "C09",
   "status": "proved",
   "theorems": [
    "C09_authentication_messages_roundtrip",
    "C09_one_measurement_is_sent_as_zero",
    "C09_certificate_portion_is_cut_at_512"
   ],
   "note": ""
  },
  {
   "property": "C10",
   "status": "proved",
   "theorems": [
    "C10_session_messages_roundtrip"
   ],
   "note": ""
  },
  {
   "property": "C11",
   "status": "proved",
   "theorems": [
    "C11_error_roundtrip",
    "C11_vendor_and_encapsulated_roundtrip"
   ],
   "note": ""
  },
  {
   "property": "C12",
   "status": "proved",
   "theorems": [
    "C12_decoders_are_local",
    "C12_payload_decoders_are_local"
   ],
   "note": ""
  },
  {
   "property": "C13",
   "status": "proved",
   "theorems": [
    "C13_encoders_fail_iff_no_room",
    "C13_payload_encoders"
   ],
   "note": ""
  },
  {
   "property": "C14",
   "status": "proved",
   "theorems": [
    "C14_oversized_opaque_rejected",
    "C14_accepted_opaque_round_trips",
    "C14_selection_round_trips",
    "C14_supported_list_round_trips",
    "C14_selected_version_was_offered",
    "C14_common_version_is_selected",
    "C14_selection_never_panics",
    "C14_format1_selection_is_read_back",
    "C14_own_format1_list_is_accepted"
   ],
   "note": ""
  },
  {
   "property": "C15",
   "status": "proved",
   "theorems": [
    "C15_buffer_exact",
    "C15_connection_messages"
   ],
   "note": ""
  },
  {
   "property": "C16",
   "status": "proved",
   "theorems": [
    "C16_get_capabilities_accepted_iff_consistent",
    "C16_capabilities_accepted_iff_consistent",
    "C16_any_accepted_message_is_consistent",
    "C16_requester_records_capabilities"
   ],
   "note": ""
  },
  {
   "property": "C17",
   "status": "proved",
   "theorems": [
    "C17_responder_selects_best_common",
    "C17_selection_is_best_common",
    "C17_selection_zero_iff_nothing_shared"
   ],
   "note": ""
  },
  {
   "property": "C18",
   "status": "proved",
   "theorems": [
    "C18_requester_takes_the_answer"
   ],
   "note": ""
  },
  {
   "property": "C19",
   "status": "proved",
   "theorems": [
    "C19_highest_common_version"
   ],
   "note": ""
  },
  {
   "property": "C20",
   "status": "proved",
   "theorems": [
    "C20_phases_advance_in_order",
    "C20_out_of_phase_rejected",
    "C20_exchange_out_of_phase_ignored"
   ],
   "note": ""
  },
  {
   "property": "C21",
   "status": "proved",
   "theorems": [
    "C21_get_version_resets"
   ],
   "note": ""
  },
  {
   "property": "C22",
   "status": "proved",
   "theorems": [
    "C22_session_requests_by_phase",
    "C22_session_requests_need_a_session"
   ],
   "note": ""
  },
  {
   "property": "C23",
   "status": "proved",
   "theorems": [
    "C23_established_only_by_verified_finish",
    "C23_established_sessions_were_finished"
   ],
   "note": "per frame and over whole histories; the premise about application replies is in the statement, and C56 shows it is needed"
  },
  {
   "property": "C24",
   "status": "proved",
   "theorems": [
    "C24_session_table_integrity",
    "C24_other_sessions_untouched",
    "C24_full_table_refuses"
   ],
   "note": ""
  },
  {
   "property": "C25",
   "status": "proved",
   "theorems": [
    "C25_requester_half_ids_fresh",
    "C25_requester_ids_unique",
    "C25_responder_half_ids_fresh"
   ],
   "note": ""
  },
  {
   "property": "C26",
   "status": "proved",
   "theorems": [
    "C26_wire_layout",
    "C26_secured_roundtrip",
    "C26_conversation"
   ],
   "note": ""
  },
  {
   "property": "C27",
   "status": "proved",
   "theorems": [
    "C27_accepted_is_authentic",
    "C27_in_order_only"
   ],
   "note": ""
  },
  {
   "property": "C28",
   "status": "proved",
   "theorems": [
    "C28_nonce_never_reused",
    "C28_counter_exhaustion"
   ],
   "note": "for histories in which derived keys are fresh and a rollback follows a successful update (the discipline of the library callers), both stated as premises; rollback after a FAILED update or two rollbacks in a row are outside the discipline"
  },
  {
   "property": "C29",
   "status": "proved",
   "theorems": [
    "C29_failed_decode_frame",
    "C29_failed_decode_counts"
   ],
   "note": "the counter movement on failure is part of the statement"
  },
  {
   "property": "C30",
   "status": "proved",
   "theorems": [
    "C30_key_update_in_step",
    "C30_repeated_updates_in_step",
    "C30_shared_session_carries_requests",
    "C30_shared_session_carries_replies"
   ],
   "note": ""
  },
  {
   "property": "C31",
   "status": "proved",
   "theorems": [
    "C31_rollback_restores",
    "C31_commit_discards"
   ],
   "note": ""
  },
  {
   "property": "C32",
   "status": "proved",
   "theorems": [
    "C32_challenge_transcript_both_builds",
    "C32_measurement_transcript_both_builds",
    "C32_key_transcript_of_each_end",
    "C32_key_transcript_both_ends",
    "C32_plain_key_transcript_both_ends",
    "C32_key_transcript_both_builds"
   ],
   "note": ""
  },
  {
   "property": "C33",
   "status": "proved",
   "theorems": [
    "C33_signed_string",
    "C33_domain_separation",
    "C33_no_legacy_signing"
   ],
   "note": ""
  },
  {
   "property": "C34",
   "status": "proved",
   "theorems": [
    "C34_info_strings_separated",
    "C34_failure_condition",
    "C34_library_strings_fit",
    "C34_labels_used"
   ],
   "note": ""
  },
  {
   "property": "C35",
   "status": "proved",
   "theorems": [
    "C35_reassembles",
    "C35_both_ends",
    "C35_provisioned_chain_is_acceptable"
   ],
   "note": ""
  },
  {
   "property": "C36",
   "status": "proved",
   "theorems": [
    "C36_retrieval",
    "C36_ends_if_portions_are_not_empty"
   ],
   "note": ""
  },
  {
   "property": "C37",
   "status": "proved",
   "theorems": [
    "C37_accepted_chains",
    "C37_stored_chain",
    "C37_every_stored_chain_was_accepted"
   ],
   "note": ""
  },
  {
   "property": "C38",
   "status": "proved",
   "theorems": [
    "C38_record_accepted_iff_well_formed",
    "C38_accepted_measurements_are_well_formed"
   ],
   "note": ""
  },
  {
   "property": "C39",
   "status": "proved",
   "theorems": [
    "C39_success_needs_the_response",
    "C39_wrong_response_fails",
    "C39_error_statuses",
    "C39_decrypt_error_erases",
    "C39_accepted_responses_parse"
   ],
   "note": ""
  },
  {
   "property": "C40",
   "status": "proved",
   "theorems": [
    "C40_challenge_is_verified",
    "C40_transcript_follows_the_exchanges"
   ],
   "note": ""
  },
  {
   "property": "C41",
   "status": "proved",
   "theorems": [
    "C41_measurement_is_verified",
    "C41_unsigned_measurement_is_recorded",
    "C41_measurement_count"
   ],
   "note": ""
  },
  {
   "property": "C42",
   "status": "proved",
   "theorems": [
    "C42_usable_only_by_verified_handshake",
    "C42_certificate_retrieval_opens_nothing",
    "C42_history",
    "C42_start_session"
   ],
   "note": "step, history and start_session forms; the premise on histories is in the statement, and C62 shows it is needed"
  },
  {
   "property": "C43",
   "status": "proved",
   "theorems": [
    "C43_failed_finish_frees"
   ],
   "note": ""
  },
  {
   "property": "C44",
   "status": "proved",
   "theorems": [
    "C44_requester_end_session_erases",
    "C44_end_session_erases"
   ],
   "note": ""
  },
  {
   "property": "C45",
   "status": "proved",
   "theorems": [
    "C45_replies_fit",
    "C45_long_replies_replaced",
    "C45_long_session_replies_replaced"
   ],
   "note": ""
  },
  {
   "property": "C46",
   "status": "proved",
   "theorems": [
    "C46_lookup_is_in_bounds",
    "C46_lookup_finds",
    "C46_wellformed_chains_accepted",
    "C46_accepted_chains_tile",
    "C46_format_check_terminates"
   ],
   "note": ""
  },
  {
   "property": "C47",
   "status": "proved",
   "theorems": [
    "C47_transitions",
    "C47_state_backed_by_device",
    "C47_lifecycle",
    "C47_queries",
    "C47_wrong_state"
   ],
   "note": "the tdisp crate is outside the workspace and does not compile at this commit; the model follows its text. A failed erase panics (unwrap) and leaves the state"
  },
  {
   "property": "C48",
   "status": "proved",
   "theorems": [
    "C48_headers_and_payloads_round_trip",
    "C48_wire_layouts"
   ],
   "note": "the reserved fields are written as zero and ignored on reading; the layouts of the header, lock, capabilities and MMIO range payloads are proved separately"
  },
  {
   "property": "C49",
   "status": "proved",
   "theorems": [
    "C49_gathered",
    "C49_stored",
    "C49_exact",
    "C49_asks"
   ],
   "note": ""
  },
  {
   "property": "C50",
   "status": "proved",
   "theorems": [
    "C50_digests_single_slot"
   ],
   "note": ""
  },
  {
   "property": "C51",
   "status": "proved",
   "theorems": [
    "C51_message_decoding_never_panics",
    "C51_decoding_without_algorithms_refuted"
   ],
   "note": "proved under the premise in the statement; C51_decoding_without_algorithms_refuted exhibits the panic outside it"
  },
  {
   "property": "C52",
   "status": "partial",
   "theorems": [
    "C52_own_dsp0277_blobs_refuted"
   ],
   "note": "the property is FALSE of the code: the theorem is its refutation, for every 1.0/1.1 connection"
  },
  {
   "property": "C53",
   "status": "partial",
   "theorems": [
    "C53_aes128_session_unusable_refuted"
   ],
   "note": "the property is FALSE of the code: the theorem is its refutation for AES-128-GCM, for every crypto instance whose HKDF returns the requested length"
  },
  {
   "property": "C54",
   "status": "proved",
   "theorems": [
    "C54_decode_never_panics",
    "C54_panics_at_counter_limit"
   ],
   "note": ""
  },
  {
   "property": "C55",
   "status": "partial",
   "theorems": [
    "C55_rejections_are_answered_refuted"
   ],
   "note": "the property is FALSE of the code: the theorem refutes it with an out-of-phase KEY_EXCHANGE"
  },
  {
   "property": "C56",
   "status": "partial",
   "theorems": [
    "C56_app_data_leaves_sessions_alone_refuted"
   ],
   "note": "the property is FALSE of the code: an application reply whose second byte is 0x65 establishes a handshaking session"
  },
  {
   "property": "C57",
   "status": "partial",
   "theorems": [
    "C57_digests_of_several_slots_refuted"
   ],
   "note": "the property is FALSE of the code: with two provisioned slots the patch loop writes every digest over the last one"
  },
  {
   "property": "C58",
   "status": "partial",
   "theorems": [
    "C58_format_check_panics_refuted"
   ],
   "note": "the property is FALSE of the code: a nine-octet DER length, or an algorithm field longer than the data, makes the walker index out of range"
  },
  {
   "property": "C59",
   "status": "proved",
   "theorems": [
    "C59_root_secrets",
    "C59_handshake_keys",
    "C59_data_keys",
    "C59_updated_keys",
    "C59_both_ends_agree",
    "C59_both_ends_agree_on_data"
   ],
   "note": ""
  },
  {
   "property": "C60",
   "status": "partial",
   "theorems": [
    "C60_failed_key_exchange_leaks_refuted",
    "C60_responder_key_exchange_leaks_refuted"
   ],
   "note": "the property is FALSE of the code, at both ends: the theorems are refutations"
  },
  {
   "property": "C61",
   "status": "partial",
   "theorems": [
    "C61_in_clear_handshake_completes_refuted"
   ],
   "note": "the property is FALSE of the code: the refutation runs the two modelled ends against each other"
  },
  {
   "property": "C62",
   "status": "partial",
   "theorems": [
    "C62_finish_needs_verified_exchange_refuted"
   ],
   "note": "the property is FALSE of the code: a forged FINISH_RSP under the empty key is accepted for a slot leaked by a failed KEY_EXCHANGE"
  },
  {
   "property": "C63",
   "status": "partial",
   "theorems": [
    "C63_requester_uses_offered_refuted"
   ],
   "note": "the property is FALSE of the code: a responder that names SHA-512 is followed although only SHA-384 was offered"
  },
  {
   "property": "C64",
   "status": "partial",
   "theorems": [
    "C64_selected_version_is_listed_refuted"
   ],
   "note": "the property is FALSE of the code: a responder that lists only version 0.5 is taken to speak 1.0"
  },
  {
   "property": "C65",
   "status": "partial",
   "theorems": [
    "C65_certificate_retrieval_ends_refuted"
   ],
   "note": "the property is FALSE of the code: a responder that answers every GET_CERTIFICATE with an empty portion keeps the loop going for ever"
  },
  {
   "property": "C66",
   "status": "partial",
   "theorems": [
    "C66_start_nonce_refuted"
   ],
   "note": "the property is FALSE of the code: the nonce in every LOCK response is zero and START is accepted with any nonce"
  },
  {
   "property": "C67",
   "status": "partial",
   "theorems": [
    "C67_interface_report_refuted"
   ],
   "note": "the property is FALSE of the code: the test is `!= Run || != ConfigLocked`, so every request is refused and puts the interface in ERROR"
  },
  {
   "property": "C68",
   "status": "partial",
   "theorems": [
    "C68_reply_reaches_peer_refuted"
   ],
   "note": "the property is FALSE of the code: no handler sets rsp_length, so the vendor response carries no payload bytes"
  },
  {
   "property": "C69",
   "status": "partial",
   "theorems": [
    "C69_digests_start_afresh_refuted"
   ],
   "note": "the property is FALSE of the build without hashed-transcript-data: GET_DIGESTS resets message_b only"
  },
  {
   "property": "C70",
   "status": "partial",
   "theorems": [
    "C70_reset_of_key_messages_refuted"
   ],
   "note": "the property is FALSE of the code: without hashed-transcript-data reset_message_k resets message_f (no caller in this commit)"
  },
  {
   "property": "C71",
   "status": "partial",
   "theorems": [
    "C71_finish_uses_session_slot_refuted"
   ],
   "note": "the property is FALSE of the build without hashed-transcript-data: finish_req.rs passes req_slot_id where the responder slot is wanted"
  },
  {
   "property": "C72",
   "status": "partial",
   "theorems": [
    "C72_digests_begin_afresh_refuted",
    "C72_retrieval_ends_with_session_refuted"
   ],
   "note": "the property is FALSE of the code: nothing clears peer_cert_chain_temp but completion, a failed portion or a new connection"
  },
  {
   "property": "C73",
   "status": "partial",
   "theorems": [
    "C73_unnegotiated_encap_refused_refuted"
   ],
   "note": "the property is FALSE of the code: encap_check_version_cap_state writes its ERROR and returns nothing, so the message is processed all the same"
  },
  {
   "property": "C74",
   "status": "proved",
   "theorems": [
    "C74_psk_session_is_shared"
   ],
   "note": ""
  },
  {
   "property": "C75",
   "status": "proved",
   "theorems": [
    "C75_connection_agrees",
    "C75_connect_then_share"
   ],
   "note": ""
  },
  {
   "property": "C76",
   "status": "proved",
   "theorems": [
    "C76_challenge_answer",
    "C76_transcript_recorded",
    "C76_challenge_ends_transcript",
    "C76_other_requests_keep_transcript"
   ],
   "note": ""
  },
  {
   "property": "C77",
   "status": "proved",
   "theorems": [
    "C77_measurements_answer"
   ],
   "note": ""
  },
  {
   "property": "C78",
   "status": "partial",
   "theorems": [
    "C78_errors_not_recorded_refuted"
   ],
   "note": "the property is FALSE of the code: GET_CERTIFICATE appends its request to B before it checks the offset (certificate_rsp.rs), so the next CHALLENGE_AUTH signs a request that was answered with ERROR"
  },
  {
   "property": "C79",
   "status": "partial",
   "theorems": [
    "C79_block_count_told_refuted"
   ],
   "note": "the property is FALSE of the code: SpdmMeasurementsResponsePayload::spdm_encode writes a count of 1 as 0 (message/measurement.rs)"
  },
  {
   "property": "C80",
   "status": "partial",
   "theorems": [
    "C80_challenge_one_reply_refuted",
    "C80_challenge_auth_signed_refuted"
   ],
   "note": "the property is FALSE of the code: after the ERROR for a failed signature the handler returns and handle_spdm_challenge sends the buffer, whose signature is filler; at SPDM 1.0/1.1 the default build always fails to sign"
  },
  {
   "property": "C81",
   "status": "proved",
   "theorems": [
    "C81_key_exchange_session_is_shared"
   ],
   "note": ""
  },
  {
   "property": "C82",
   "status": "proved",
   "theorems": [
    "C82_each_encapsulated_request_is_answered_as_asked",
    "C82_success_follows_the_closing_message"
   ],
   "note": ""
  },
  {
   "property": "C83",
   "status": "partial",
   "theorems": [
    "C83_no_session_without_mutual_authentication_refuted",
    "C83_the_other_build_opens_the_session_refuted"
   ],
   "note": "the property is FALSE of the code: session_based_mutual_authenticate returns INVALID_MSG_FIELD for MutAuthRequested = 0 (mutual_authenticate.rs:29)"
  },
  {
   "property": "C84",
   "status": "partial",
   "theorems": [
    "C84_chains_of_different_length_refuted"
   ],
   "note": "the property is FALSE of the code: generate_finish_req_signature cuts the local chain at the data size of the peer chain before it verifies its own signature, and unwraps the result (finish_req.rs:391-409)"
  },
  {
   "property": "C85",
   "status": "proved",
   "theorems": [
    "C85_challenge_given",
    "C85_measurements_given"
   ],
   "note": ""
  },
  {
   "property": "C86",
   "status": "proved",
   "theorems": [
    "C86_compatible_ends_connect"
   ],
   "note": ""
  },
  {
   "property": "C87",
   "status": "partial",
   "theorems": [
    "C87_chain_follows_hash_refuted",
    "C87_connected_fetches_refuted"
   ],
   "note": "the property is FALSE of the code: construct_my_cert_chain (common/mod.rs:242-281) builds a slot only when it is empty, and nothing ever empties it, so the chain keeps the root hash of the first connection and later requesters with another hash algorithm reject it (INVALID_CERT)"
  },
  {
   "property": "C88",
   "status": "partial",
   "theorems": [
    "C88_small_requester_fetches_refuted"
   ],
   "note": "the property is FALSE of the code: get_certificate_req.rs asks for 512 bytes per portion whatever was announced; the responder refuses with RESPONSE_TOO_LARGE below 520"
  },
  {
   "property": "C89",
   "status": "proved",
   "theorems": [
    "C89_conversion_is_der",
    "C89_der_says_the_numbers",
    "C89_ecdsa_signatures_verified",
    "C89_rsa_signatures_verified",
    "C89_acceptance"
   ],
   "note": ""
  },
  {
   "property": "C90",
   "status": "partial",
   "theorems": [
    "C90_preferred_pair_panics_refuted"
   ],
   "note": "the property is FALSE of the code: algo.rs prefers SHA-512 and ECDSA P-384, and the match of asym_verify_impl.rs:25-71 has no case for SHA-512 with an ECDSA curve: the verifier panics"
  },
  {
   "property": "C91",
   "status": "proved",
   "theorems": [
    "C91_running_digests",
    "C91_no_leak"
   ],
   "note": ""
  },
  {
   "property": "C92",
   "status": "proved",
   "theorems": [
    "C92_random_fills_the_buffer"
   ],
   "note": ""
  },
  {
   "property": "C93",
   "status": "proved",
   "theorems": [
    "C93_unknown_session_refused",
    "C93_bad_slot_refused",
    "C93_finish_needs_chain",
    "C93_key_update_needs_operation",
    "C93_finish_names_slot"
   ],
   "note": ""
  },
  {
   "property": "C94",
   "status": "proved",
   "theorems": [
    "C94_vendor_answer",
    "C94_vendor_request"
   ],
   "note": ""
  },
  {
   "property": "C95",
   "status": "partial",
   "theorems": [
    "C95_vendor_in_session_refuted",
    "C95_vendor_on_connection_refuted"
   ],
   "note": "the property is FALSE of the code: send_spdm_vendor_defined_request calls reset_context first (vendor_req.rs:30), so the request carries version 0 and every session is erased before it is used"
  },
  {
   "property": "C96",
   "status": "proved",
   "theorems": [
    "C96_key_exchange_answer"
   ],
   "note": ""
  },
  {
   "property": "C97",
   "status": "proved",
   "theorems": [
    "C97_psk_exchange_answer"
   ],
   "note": ""
  },
  {
   "property": "C98",
   "status": "partial",
   "theorems": [
    "C98_psk_answer_is_not_fresh_refuted",
    "C98_recorded_session_replays_refuted"
   ],
   "note": "the property is FALSE of the code: with a PSK context negotiated the responder context is 64 zero bytes (psk_exchange_rsp.rs:163-184, condition inverted), so a recorded session replays"
  },
  {
   "property": "C99",
   "status": "partial",
   "theorems": [
    "C99_key_exchange_without_dhe_crashes_refuted",
    "C99_no_message_crashes_the_responder_refuted"
   ],
   "note": "the property is FALSE of the code: without a negotiated DHE group a KEY_EXCHANGE panics (SpdmDheAlgo::get_size, algo.rs:363-371)"
  },
  {
   "property": "C100",
   "status": "partial",
   "theorems": [
    "C100_challenge_crashes_refuted",
    "C100_no_answer_crashes_the_requester_refuted"
   ],
   "note": "the property is FALSE of the code: a responder that announces CTExponent 64 or more panics the requester at the first CHALLENGE (requester/context.rs:108-112, overflow checks on)"
  }
 ]
}