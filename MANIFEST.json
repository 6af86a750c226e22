{
 "claims": [
  {
   "property": "C01",
   "status": "proved",
   "theorems": [
    "C01_header_wire_layout"
   ],
   "note": "Layout proved for every header, context, buffer and host; bytes are given by wire_header. [PropHeader.v]"
  },
  {
   "property": "C02",
   "status": "proved",
   "theorems": [
    "C02_header_write_decision",
    "C02_header_write_never_panics"
   ],
   "note": "[PropHeader.v]"
  },
  {
   "property": "C03",
   "status": "proved",
   "theorems": [
    "C03_header_decode_exact"
   ],
   "note": "[PropHeader.v]"
  },
  {
   "property": "C04",
   "status": "proved",
   "theorems": [
    "C04_header_decode_verdict",
    "C04_header_decode_never_panics",
    "C04_incomplete_means_missing_octets",
    "C04_rejection_is_final"
   ],
   "note": "[PropHeader.v]"
  },
  {
   "property": "C05",
   "status": "proved",
   "theorems": [
    "C05_header_round_trip"
   ],
   "note": "[PropHeader.v]"
  },
  {
   "property": "C06",
   "status": "proved",
   "theorems": [
    "C06_decoded_header_reencodes",
    "C06_reencode_every_decoded_header_refuted"
   ],
   "note": "Re-encoding proved with the exact set of cleared bits; the excluded case (compression flag without source) is proved to be accepted by the decoder and refused by the encoder. [PropHeader.v]"
  },
  {
   "property": "C07",
   "status": "proved",
   "theorems": [
    "C07_octet_size",
    "C07_octet_size_is_encoded_size_refuted"
   ],
   "note": "Exact relation proved; that the size function equals the encoded size is refuted (two octets too many under compression). [PropHeader.v]"
  },
  {
   "property": "C08",
   "status": "proved",
   "theorems": [
    "C08_frame_type_bits",
    "C08_frame_version_bits",
    "C08_address_mode_bits",
    "C08_security_level_bits",
    "C08_key_id_mode_bits",
    "C08_discriminants",
    "C08_broadcast"
   ],
   "note": "[PropHeader.v]"
  },
  {
   "property": "C09",
   "status": "proved",
   "theorems": [
    "C09_superframe_write",
    "C09_superframe_read",
    "C09_superframe_read_total",
    "C09_superframe_round_trip",
    "C09_superframe_truncation"
   ],
   "note": "[PropContent.v]"
  },
  {
   "property": "C10",
   "status": "proved",
   "theorems": [
    "C10_gts_api_values",
    "C10_gts_write",
    "C10_gts_read",
    "C10_gts_read_total",
    "C10_gts_round_trip"
   ],
   "note": "[PropContent.v]"
  },
  {
   "property": "C11",
   "status": "proved",
   "theorems": [
    "C11_gts_own_bytes",
    "C11_gts_decodes_own_bytes_refuted"
   ],
   "note": "Exact behaviour proved; the desirable property is refuted for every value with a slot. [PropContent.v]"
  },
  {
   "property": "C12",
   "status": "proved",
   "theorems": [
    "C12_pending_api_values",
    "C12_pending_write",
    "C12_pending_read",
    "C12_pending_round_trip",
    "C12_pending_accepts"
   ],
   "note": "[PropContent.v]"
  },
  {
   "property": "C13",
   "status": "proved",
   "theorems": [
    "C13_beacon_api_values",
    "C13_beacon_write",
    "C13_beacon_read",
    "C13_beacon_round_trip",
    "C13_beacon_read_total"
   ],
   "note": "[PropContent.v]"
  },
  {
   "property": "C14",
   "status": "proved",
   "theorems": [
    "C14_beacon_no_panic"
   ],
   "note": "[PropContent.v]"
  },
  {
   "property": "C15",
   "status": "proved",
   "theorems": [
    "C15_command_write",
    "C15_command_read",
    "C15_command_round_trip"
   ],
   "note": "[PropContent.v]"
  },
  {
   "property": "C16",
   "status": "proved",
   "theorems": [
    "C16_command_verdict",
    "C16_command_read_never_panics",
    "C16_unknown_identifier",
    "C16_unknown_status",
    "C16_unknown_reason"
   ],
   "note": "[PropContent.v]"
  },
  {
   "property": "C17",
   "status": "proved",
   "theorems": [
    "C17_realignment_swallows",
    "C17_commands_self_delimiting_refuted",
    "C17_other_commands_self_delimiting"
   ],
   "note": "Exact behaviour proved; self-delimitation refuted for realignment without channel page and proved for every other command. [PropContent.v]"
  },
  {
   "property": "C18",
   "status": "proved",
   "theorems": [
    "C18_plain_frame_layout",
    "C18_plain_frame_length",
    "C18_context_untouched"
   ],
   "note": "[PropFrame.v]"
  },
  {
   "property": "C19",
   "status": "proved",
   "theorems": [
    "C19_frame_read_exact"
   ],
   "note": "[PropFrame.v]"
  },
  {
   "property": "C20",
   "status": "proved",
   "theorems": [
    "C20_frame_round_trip_none"
   ],
   "note": "[PropFrame.v]"
  },
  {
   "property": "C21",
   "status": "proved",
   "theorems": [
    "C21_frame_round_trip_explicit"
   ],
   "note": "[PropFrame.v]"
  },
  {
   "property": "C22",
   "status": "proved",
   "theorems": [
    "C22_payload_octet_swallowed",
    "C22_footer_octet_swallowed",
    "C22_every_written_frame_reads_back_refuted"
   ],
   "note": "The desirable property is refuted for both footer modes; the exact behaviour (which octet is swallowed) is proved. [PropFrame.v]"
  },
  {
   "property": "C23",
   "status": "proved",
   "theorems": [
    "C23_frame_read_verdict",
    "C23_never_panics_without_footer",
    "C23_panics_iff"
   ],
   "note": "[PropFrame.v]"
  },
  {
   "property": "C24",
   "status": "proved",
   "theorems": [
    "C24_plain_read_refuses_security",
    "C24_plain_read_names_security"
   ],
   "note": "[PropFrame.v]"
  },
  {
   "property": "C25",
   "status": "proved",
   "theorems": [
    "C25_header_write",
    "C25_content_write",
    "C25_frame_write"
   ],
   "note": "[PropSecure.v]"
  },
  {
   "property": "C26",
   "status": "proved",
   "theorems": [
    "C26_plain_write_decision",
    "C26_plain_write_never_panics",
    "C26_outcome_by_length_only"
   ],
   "note": "[PropFrame.v]"
  },
  {
   "property": "C27",
   "status": "proved",
   "theorems": [
    "C27_secured_write_exact",
    "C27_secured_frame_layout",
    "C27_secured_write_succeeds"
   ],
   "note": "[PropSecure.v]"
  },
  {
   "property": "C28",
   "status": "proved",
   "theorems": [
    "C28_secured_round_trip"
   ],
   "note": "[PropReceive.v]"
  },
  {
   "property": "C29",
   "status": "proved",
   "theorems": [
    "C29_counter_never_decreases",
    "C29_used_counters_increase",
    "C29_nonce_injective",
    "C29_nonces_distinct",
    "C29_secured_frame_uses_its_counter",
    "C29_secured_counters_increase",
    "C29_counter_on_the_wire",
    "C29_no_key_use_without_counter"
   ],
   "note": "[PropHistory.v]"
  },
  {
   "property": "C30",
   "status": "proved",
   "theorems": [
    "C30_exhausted_write_fails",
    "C30_never_wraps"
   ],
   "note": "[PropHistory.v]"
  },
  {
   "property": "C31",
   "status": "proved",
   "theorems": [
    "C31_secured_frame_fits",
    "C31_too_long_refused",
    "C31_compressed_refused_early",
    "C31_fits_without_matching_content_refuted"
   ],
   "note": "[PropSecure.v]"
  },
  {
   "property": "C32",
   "status": "proved",
   "theorems": [
    "C32_accepted_iff",
    "C32_accepted_has_valid_tag"
   ],
   "note": "[PropReceive.v]"
  },
  {
   "property": "C33",
   "status": "proved",
   "theorems": [
    "C33_context_never_changes",
    "C33_rejected_changes_nothing",
    "C33_accepted_sets_counter",
    "C33_unsecured_changes_nothing"
   ],
   "note": "[PropReceive.v]"
  },
  {
   "property": "C34",
   "status": "proved",
   "theorems": [
    "C34_accepted_counters_increase",
    "C34_no_replay"
   ],
   "note": "[PropHistory.v]"
  },
  {
   "property": "C35",
   "status": "proved",
   "theorems": [
    "C35_last_counter_panics",
    "C35_last_counter_reopens_window",
    "C35_replay_protection_refuted"
   ],
   "note": "Replay protection is refuted for an accepted counter 0xFFFFFFFF: exact behaviour with and without overflow checks proved. [PropHistory.v]"
  },
  {
   "property": "C36",
   "status": "proved",
   "theorems": [
    "C36_receive_panics_iff",
    "C36_short_frame_panics",
    "C36_unauthenticated_panic"
   ],
   "note": "[PropReceive.v]"
  },
  {
   "property": "C37",
   "status": "proved",
   "theorems": [
    "C37_header_not_authenticated",
    "C37_header_authenticated_refuted"
   ],
   "note": "Authentication of headers is refuted in general: any two headers agreeing on source, key identifier, counter and level are interchangeable. [PropReceive.v]"
  },
  {
   "property": "C38",
   "status": "proved",
   "theorems": [
    "C38_unsecured_read_alike"
   ],
   "note": "[PropReceive.v]"
  },
  {
   "property": "C39",
   "status": "proved",
   "theorems": [
    "C39_write_without_context",
    "C39_read_without_context",
    "C39_secured_never_read_without_context"
   ],
   "note": "[PropFrame.v, PropReceive.v]"
  },
  {
   "property": "C40",
   "status": "proved",
   "theorems": [
    "C40_write_panics_iff"
   ],
   "note": "[PropSecure.v]"
  },
  {
   "property": "C41",
   "status": "proved",
   "theorems": [
    "C41_write_host_independent",
    "C41_big_endian_counter_misread",
    "C41_secured_bytes_host_independent_refuted",
    "C41_write_same_on_hosts"
   ],
   "note": "Unsecured frames proved host independent; for secured frames host independence is refuted and the exact difference proved. C41_write_same_on_hosts covers failed writes and their buffers as well. [PropSecure.v, PropWrite.v]"
  },
  {
   "property": "C42",
   "status": "proved",
   "theorems": [
    "C42_unprotected_never_accepted",
    "C42_level_none_refused",
    "C42_level_enc_refused",
    "C42_level_none_written_in_clear",
    "C42_enc_never_written",
    "C42_tag_length"
   ],
   "note": "[PropReceive.v, PropSecure.v]"
  },
  {
   "property": "C43",
   "status": "proved",
   "theorems": [
    "C43_accepted_in_order_at_most_once",
    "C43_in_order_delivery_accepted"
   ],
   "note": "[PropHistory.v]"
  },
  {
   "property": "C44",
   "status": "proved",
   "theorems": [
    "C44_unsecuring_queries",
    "C44_securing_key_query"
   ],
   "note": "[PropReceive.v, PropSecure.v]"
  },
  {
   "property": "C45",
   "status": "proved",
   "theorems": [
    "C45_frames_injective",
    "C45_without_exclusion_refuted"
   ],
   "note": "Injectivity proved outside realignment without page; without that exclusion it is refuted. [PropFrame.v]"
  },
  {
   "property": "C46",
   "status": "proved",
   "theorems": [
    "C46_header_locality",
    "C46_beacon_locality",
    "C46_pending_locality",
    "C46_superframe_locality",
    "C46_command_locality"
   ],
   "note": "[PropFrame.v]"
  },
  {
   "property": "C47",
   "status": "proved",
   "theorems": [
    "C47_plain_read_errors",
    "C47_plain_write_errors",
    "C47_receive_errors",
    "C47_secured_write_errors"
   ],
   "note": "[PropFrame.v, PropReceive.v, PropSecure.v]"
  },
  {
   "property": "C48",
   "status": "proved",
   "theorems": [
    "C48_command_id",
    "C48_association_status",
    "C48_disassociation_reason"
   ],
   "note": "[PropContent.v]"
  },
  {
   "property": "C49",
   "status": "proved",
   "theorems": [
    "C49_mismatch_becomes_payload",
    "C49_mismatch_is_refused_refuted"
   ],
   "note": "Exact behaviour proved; that a mismatch is refused is refuted. [PropFrame.v]"
  },
  {
   "property": "C50",
   "status": "proved",
   "theorems": [
    "C50_counter_use_exact",
    "C50_failures_before_counter",
    "C50_key_failure_uses_counter"
   ],
   "note": "[PropSecure.v]"
  },
  {
   "property": "C51",
   "status": "proved",
   "theorems": [
    "C51_default_keys_protect_nothing",
    "C51_default_keys_write_fails",
    "C51_default_lookups_accept_nothing",
    "C51_default_cipher_ignores_key",
    "C51_default_cipher_accepts_any_key"
   ],
   "note": "[PropDefault.v]"
  },
  {
   "property": "C52",
   "status": "proved",
   "theorems": [
    "C52_addresses_read",
    "C52_addresses_write",
    "C52_addresses_round_trip",
    "C52_security_control_read",
    "C52_security_control_empty",
    "C52_security_control_write",
    "C52_aux_read_exact",
    "C52_aux_read_total",
    "C52_aux_write",
    "C52_aux_write_ignores_stored_counter",
    "C52_aux_round_trip",
    "C52_key_identifier_write",
    "C52_gts_descriptor_read",
    "C52_gts_descriptor_write",
    "C52_gts_descriptor_round_trip"
   ],
   "note": "[PropCodec.v]"
  },
  {
   "property": "C53",
   "status": "proved",
   "theorems": [
    "C53_failed_write_buffer",
    "C53_clear_payload_left",
    "C53_no_clear_payload_refuted"
   ],
   "note": "[PropBuffer.v]"
  },
  {
   "property": "C54",
   "status": "proved",
   "theorems": [
    "C54_buffer_shape",
    "C54_payload_in_place"
   ],
   "note": "[PropBuffer.v]"
  },
  {
   "property": "C55",
   "status": "proved",
   "theorems": [
    "C55_nonces_distinct_across_senders"
   ],
   "note": "[PropRestart.v]"
  },
  {
   "property": "C56",
   "status": "proved",
   "theorems": [
    "C56_exempt_ignored",
    "C56_exempt_never_changed"
   ],
   "note": "[PropBuffer.v, PropNetwork.v]"
  },
  {
   "property": "C57",
   "status": "proved",
   "theorems": [
    "C57_encrypt_is_rfc3610",
    "C57_decrypt_accepts_iff",
    "C57_decrypt_inverts_encrypt",
    "C57_other_tag_rejected"
   ],
   "note": "[PropCcm.v]"
  },
  {
   "property": "C58",
   "status": "proved",
   "theorems": [
    "C58_decode_then_encode",
    "C58_encoding_is_stable",
    "C58_identity_iff"
   ],
   "note": "[PropReencode.v]"
  },
  {
   "property": "C59",
   "status": "proved",
   "theorems": [
    "C59_resuming_ahead_is_safe",
    "C59_reused_counter_leaks",
    "C59_stale_counter_refuted"
   ],
   "note": "[PropRestart.v]"
  },
  {
   "property": "C60",
   "status": "proved",
   "theorems": [
    "C60_restored_store",
    "C60_rollback_refuted"
   ],
   "note": "[PropRestart.v]"
  },
  {
   "property": "C61",
   "status": "proved",
   "theorems": [
    "C61_other_devices_do_not_interfere",
    "C61_refused_input_leaves_no_trace"
   ],
   "note": "[PropRestart.v]"
  },
  {
   "property": "C62",
   "status": "proved",
   "theorems": [
    "C62_default_footer_read",
    "C62_default_footer_write",
    "C62_constructed_secured_frame",
    "C62_unsecured_write_ignores_context",
    "C62_no_security_context",
    "C62_new_beacon_parts"
   ],
   "note": "[PropApi.v]"
  },
  {
   "property": "C63",
   "status": "proved",
   "theorems": [
    "C63_decode_errors_kept_apart",
    "C63_encode_errors_kept_apart",
    "C63_security_errors_kept_apart",
    "C63_messages_name_the_error",
    "C63_read_errors",
    "C63_write_errors",
    "C63_receive_errors"
   ],
   "note": "[PropApi.v]"
  },
  {
   "property": "C64",
   "status": "proved",
   "theorems": [
    "C64_receive_exact",
    "C64_only_data_frames"
   ],
   "note": "[PropNetwork.v]"
  },
  {
   "property": "C65",
   "status": "proved",
   "theorems": [
    "C65_truncated_header",
    "C65_truncated_beacon",
    "C65_truncated_command",
    "C65_command_rejection_is_final",
    "C65_frame_rejection_is_final",
    "C65_frame_extended",
    "C65_frame_truncated"
   ],
   "note": "[PropStream.v]"
  },
  {
   "property": "C66",
   "status": "proved",
   "theorems": [
    "C66_none_then_explicit",
    "C66_explicit_then_none"
   ],
   "note": "[PropStream.v]"
  },
  {
   "property": "C67",
   "status": "proved",
   "theorems": [
    "C67_header_verdict",
    "C67_header_read",
    "C67_header_host_independent",
    "C67_frame_host_independent",
    "C67_receive_host_independent",
    "C67_accepted_on_every_host_refuted"
   ],
   "note": "Exact host dependence of reading proved; that acceptance is the same on every host is refuted for key sources. [PropStream.v]"
  },
  {
   "property": "C68",
   "status": "proved",
   "theorems": [
    "C68_accepted_later_iff",
    "C68_outsiders_cannot_block"
   ],
   "note": "[PropNetwork.v]"
  },
  {
   "property": "C69",
   "status": "proved",
   "theorems": [
    "C69_network_delivery",
    "C69_network_order"
   ],
   "note": "[PropNetwork.v]"
  },
  {
   "property": "C70",
   "status": "proved",
   "theorems": [
    "C70_substance_in_order_at_most_once"
   ],
   "note": "[PropAttacker.v]"
  },
  {
   "property": "C71",
   "status": "proved",
   "theorems": [
    "C71_stream_apart_from_mac",
    "C71_stream_is_what_encrypts",
    "C71_key_stream_never_reused"
   ],
   "note": "[PropKeys.v]"
  },
  {
   "property": "C72",
   "status": "proved",
   "theorems": [
    "C72_counter_counts",
    "C72_exact_capacity",
    "C72_receiver_capacity"
   ],
   "note": "[PropKeys.v]"
  },
  {
   "property": "C73",
   "status": "proved",
   "theorems": [
    "C73_sending_and_receiving_independent"
   ],
   "note": "[PropNode.v]"
  },
  {
   "property": "C74",
   "status": "proved",
   "theorems": [
    "C74_system_order",
    "C74_system_nonces",
    "C74_system_delivery"
   ],
   "note": "[PropNode.v]"
  },
  {
   "property": "C75",
   "status": "proved",
   "theorems": [
    "C75_eq_decides_equality",
    "C75_beacon_eq_is_what_is_seen",
    "C75_beacon_eq_is_same_octets",
    "C75_round_trip_eq",
    "C75_secured_round_trip_eq",
    "C75_new_security_header_eq"
   ],
   "note": "[PropEq.v]"
  },
  {
   "property": "C76",
   "status": "proved",
   "theorems": [
    "C76_own_frame_accepted",
    "C76_own_address_refused",
    "C76_every_acceptance_has_an_origin",
    "C76_own_frames_never_accepted"
   ],
   "note": "[PropReflect.v]"
  },
  {
   "property": "C77",
   "status": "proved",
   "theorems": [
    "C77_nonce_is_the_standards_iff",
    "C77_nonce_is_the_standards_of_reversed",
    "C77_written_frame_in_the_standards_terms",
    "C77_all_but_the_tag_is_standard",
    "C77_frames_conform_to_the_standard_refuted",
    "C77_payload_conforms_to_the_standard_refuted"
   ],
   "note": "Conformance of secured frames is refuted at every level with a tag; the exact relation to the standard (reversed octets in the nonce, header not covered by the tag) is proved. The standard's side is checked against the three test vectors of its annex C. [PropStandard.v]"
  },
  {
   "property": "C78",
   "status": "proved",
   "theorems": [
    "C78_tag_damage_refused",
    "C78_payload_damage_refused",
    "C78_one_tag_octet",
    "C78_one_octet",
    "C78_damaged_copies_then_the_frame",
    "C78_aes_is_permuting",
    "C78_one_octet_with_aes",
    "C78_short_tags_notice_one_octet_refuted",
    "C78_short_tags_notice_one_block_refuted"
   ],
   "note": "Proved for 16-octet tags (payload) and all tags (tag); refuted for payload damage at the levels with 4- and 8-octet tags. [PropCorrupt.v]"
  },
  {
   "property": "C79",
   "status": "proved",
   "theorems": [
    "C79_equal_blocks_look_different",
    "C79_repeated_payload_looks_different",
    "C79_with_aes",
    "C79_short_payload_looks_different_refuted"
   ],
   "note": "Proved for whole blocks and payloads of 16 octets or more; refuted for shorter payloads. [PropLooks.v]"
  },
  {
   "property": "C80",
   "status": "proved",
   "theorems": [
    "C80_ignored_bits",
    "C80_one_bit",
    "C80_data_frames"
   ],
   "note": "[PropIgnored.v]"
  },
  {
   "property": "C81",
   "status": "proved",
   "theorems": [
    "C81_sender_reconfigured",
    "C81_receiver_reconfigured",
    "C81_accepted_again_iff"
   ],
   "note": "[PropReconfig.v]"
  },
  {
   "property": "C82",
   "status": "proved",
   "theorems": [
    "C82_one_right_tag",
    "C82_guesses",
    "C82_exhaustive_search"
   ],
   "note": "[PropGuess.v]"
  },
  {
   "property": "C83",
   "status": "proved",
   "theorems": [
    "C83_equal_values_hash_alike",
    "C83_different_values_feed_differently",
    "C83_hash_iff_equal",
    "C83_address_pairs"
   ],
   "note": "[PropHash.v]"
  },
  {
   "property": "C84",
   "status": "proved",
   "theorems": [
    "C84_sending",
    "C84_no_key_used_sending",
    "C84_receiving",
    "C84_no_key_used_receiving",
    "C84_amount_of_work",
    "C84_at_most_18_blocks"
   ],
   "note": "[PropCipher.v]"
  },
  {
   "property": "C85",
   "status": "proved",
   "theorems": [
    "C85_payload_octets_have_no_influence",
    "C85_payload_length_is_visible",
    "C85_histories_of_one_shape"
   ],
   "note": "[PropShows.v]"
  },
  {
   "property": "C86",
   "status": "proved",
   "theorems": [
    "C86_any_secrets_fit",
    "C86_one_sender",
    "C86_reused_counters_refuted",
    "C86_permutations_refuted"
   ],
   "note": "Proved for arbitrary functions on blocks as ciphers; refuted for counter reuse and for permutations (what each of these reveals is the content of C59 and C79). [PropSecret.v]"
  },
  {
   "property": "C87",
   "status": "proved",
   "theorems": [
    "C87_forgery_undecided",
    "C87_sent_payload_decided"
   ],
   "note": "[PropForge.v]"
  },
  {
   "property": "C88",
   "status": "proved",
   "theorems": [
    "C88_unsecured_overhead",
    "C88_unsecured_no_limit",
    "C88_secured_capacity",
    "C88_secured_floor",
    "C88_every_written_frame_fits_refuted"
   ],
   "note": "[PropCapacity.v]"
  },
  {
   "property": "C89",
   "status": "proved",
   "theorems": [
    "C89_write_asks_once",
    "C89_read_asks_once",
    "C89_sender_history",
    "C89_nonces_once",
    "C89_no_replays",
    "C89_in_step",
    "C89_forged_frame_leaves_step_refuted"
   ],
   "note": "The refuted part is a finding about the design (the provider is asked before authentication), shown on a computed case. [PropStateful.v]"
  },
  {
   "property": "C90",
   "status": "proved",
   "theorems": [
    "C90_write_states",
    "C90_write_stopped",
    "C90_resumed_nonces",
    "C90_read_states",
    "C90_read_stopped",
    "C90_lost_or_repeatable",
    "C90_no_replays",
    "C90_retry_from_buffer_refuted",
    "C90_no_unverified_payload_refuted"
   ],
   "note": "The order of assignments is that of the source; for power failures the memory must be written back in program order. The crate's CCM call is taken to decrypt before comparing the tag (ccm 0.4). The two refuted halves are theorems with the suffix _refuted. [PropCrash.v]"
  },
  {
   "property": "C91",
   "status": "proved",
   "theorems": [
    "C91_write_exact",
    "C91_incomplete_iff",
    "C91_incomplete_write",
    "C91_larger_buffer"
   ],
   "note": "Exact; also holds for content that disagrees with the frame type. The byte crate's writes are modelled as all-or-nothing per field (its documented behaviour). [PropWrite.v]"
  },
  {
   "property": "C92",
   "status": "proved",
   "theorems": [
    "C92_header_read",
    "C92_beacon_read",
    "C92_command_read",
    "C92_read_exact",
    "C92_receive_exact",
    "C92_builds"
   ],
   "note": "Exact. Where the code reads a key source in the host's byte order, the function takes that order as a parameter (C67). Receptions are for every block cipher whose output is 16 octets. [PropRead.v]"
  },
  {
   "property": "C93",
   "status": "proved",
   "theorems": [
    "C93_newtypes_exact",
    "C93_address_exact",
    "C93_round_trip",
    "C93_only_addresses",
    "C93_nothing_shows_two_addresses",
    "C93_every_address_is_shown"
   ],
   "note": "Exact at the level of serde's data model; the derived code and serde's integer implementations are modelled from their documentation. File formats themselves are not modelled. [PropSerde.v]"
  },
  {
   "property": "C94",
   "status": "proved",
   "theorems": [
    "C94_as_on_copies",
    "C94_first_that_accepts",
    "C94_after_a_failure",
    "C94_right_key_tried_second_refuted"
   ],
   "note": "Device lookups are assumed lawful (an unchanged descriptor handed back changes nothing). What the cipher leaves after a failed decryption is an arbitrary function; the refutation uses one that clears the buffer. [PropTrial.v]"
  },
  {
   "property": "C95",
   "status": "proved",
   "theorems": [
    "C95_relayed_frame_accepted",
    "C95_own_counter_refuted"
   ],
   "note": "A consequence of the header not being authenticated (C37) and of the header codec (C01, C03); stated for little-endian hosts because the counter is written in the host's byte order (C41). [PropTrial.v]"
  },
  {
   "property": "C96",
   "status": "proved",
   "theorems": [
    "C96_copies_read_like_the_original",
    "C96_one_writer",
    "C96_counters_consecutive",
    "C96_two_writers_share_nonces",
    "C96_disjoint_ranges_are_safe",
    "C96_two_writers_refuted"
   ],
   "note": "The key provider is a function, so its copy is itself; a provider with interior mutability is outside the model. Contexts of different applications are C55. [PropCopies.v]"
  },
  {
   "property": "C97",
   "status": "proved",
   "theorems": [
    "C97_other_address_accepted",
    "C97_once_per_sender",
    "C97_two_descriptors_refuted"
   ],
   "note": "The condition is on the application's key provider and device lookup; the library does not impose it, and its DeviceDescriptorLookup interface, keyed by address, does not suggest it. [PropAlias.v]"
  },
  {
   "property": "C98",
   "status": "proved",
   "theorems": [
    "C98_saved_ahead",
    "C98_cost",
    "C98_saved_first",
    "C98_saved_behind_refuted",
    "C98_acted_first_refuted"
   ],
   "note": "sender: C98_saved_ahead, C98_cost; receiver: C98_saved_first; the other orders are refuted. A write to memory that survives is taken to be atomic; interruptions of calls are those of C90's model. [PropPersist.v]"
  },
  {
   "property": "C99",
   "status": "proved",
   "theorems": [
    "C99_written_and_read",
    "C99_fits_iff",
    "C99_read_total",
    "C99_reads_from_offset",
    "C99_same_octets_same_values",
    "C99_any_place_refuted"
   ],
   "note": "the loops over items are the application's; write_with/read_with are ByteCrate.v's. Frames read to the end of their input (C19) and are therefore no items. [PropSequence.v]"
  },
  {
   "property": "C100",
   "status": "proved",
   "theorems": [
    "C100_sender_per_key",
    "C100_new_keys_new_counters",
    "C100_receiver_per_key",
    "C100_again_means_two_keys_fit"
   ],
   "note": "that no octets fit two keys is a property of the cipher and not claimed; C82 and C87 count the guesses. [PropRekey.v]"
  },
  {
   "property": "C101",
   "status": "proved",
   "theorems": [
    "C101_exactly_the_newer_ones",
    "C101_stored_counter",
    "C101_order_leaves_no_trace",
    "C101_newest_gets_through",
    "C101_heard_again",
    "C101_receivers_agree_on_the_order",
    "C101_last_counter_refuted"
   ],
   "note": "devices whose descriptors are found under several addresses: C97; stores that are changed meanwhile: C81, C100. [PropOrder.v]"
  },
  {
   "property": "C102",
   "status": "proved",
   "theorems": [
    "C102_reading",
    "C102_writing",
    "C102_writing_history",
    "C102_receiving",
    "C102_receiving_without_panic",
    "C102_receiving_history",
    "C102_same_history_refuted"
   ],
   "note": "what overflow checks do is fixed in ByteCrate.v (u32_add, usize_sub); shifts lose their high bits in both builds. Goes on from C92_builds. [PropBuilds.v]"
  },
  {
   "property": "C103",
   "status": "proved",
   "theorems": [
    "C103_accepted_iff",
    "C103_anything_else_may_change",
    "C103_same_octets_two_headers"
   ],
   "note": "the standard also covers the MAC header by the tag; this program does not (C37). Goes on from C37 and C97. [PropBinding.v]"
  },
  {
   "property": "C104",
   "status": "proved",
   "theorems": [
    "C104_same_text_same_value",
    "C104_options_lists_errors",
    "C104_every_other_type",
    "C104_one_line",
    "C104_reading",
    "C104_receiving",
    "C104_writing",
    "C104_over_several_lines"
   ],
   "note": "Assumes of the standard library what DebugModel.v says of {:?} and {:#?}; {:x?} not modelled. SecurityError has no ==; two of them are compared by equality. [PropDebug.v]"
  }
 ]
}