{
 "claims": [
  {
   "property": "C01",
   "status": "proved",
   "theorems": [
    "C01_crc8_is_polynomial_remainder",
    "C01_crc16_is_polynomial_remainder",
    "C01_peers_agree8",
    "C01_peers_agree16"
   ],
   "note": "CRC tables, loops, initial values against GF(2) polynomial remainder; no hypotheses on the string."
  },
  {
   "property": "C02",
   "status": "proved",
   "theorems": [
    "C02_burst16_changes_crc16",
    "C02_burst8_changes_crc8",
    "C02_two_adjacent_bytes",
    "C02_one_byte"
   ],
   "note": "All lengths and positions of the window."
  },
  {
   "property": "C03",
   "status": "partial",
   "theorems": [
    "C03_unnoticed_exactly",
    "C03_body_burst_detected_refuted",
    "C03_body_burst_detected_partial"
   ],
   "note": "REFUTED as stated: with a declared header length of 1 the checksum does not cover the body and the damaged packet is accepted with different contents. Partial: holds for every packet whose header length field is the true one. C03_unnoticed_exactly: for every header length, a burst outside the control fields is accepted if and only if it changes no byte under a checksum and the frame still parses."
  },
  {
   "property": "C04",
   "status": "partial",
   "theorems": [
    "C04_header_byte_exactly",
    "C04_header_byte_detected_refuted",
    "C04_header_byte_detected_partial"
   ],
   "note": "REFUTED as stated, the same way (declared header length 1). Partial: holds for packets whose header length field is the true one. C04_header_byte_exactly: for every header length, another value in a header byte that is no control field is accepted if and only if the byte is under no checksum."
  },
  {
   "property": "C05",
   "status": "partial",
   "theorems": [
    "C05_body_crc_code_refuted",
    "C05_138_never_reported"
   ],
   "note": "REFUTED: the code is 137 for a body checksum failure, and 138 is never returned by Decode."
  },
  {
   "property": "C06",
   "status": "proved",
   "theorems": [
    "C06_acceptance_sound",
    "C06_acceptance_complete"
   ],
   "note": "Both directions: acceptance is characterised exactly."
  },
  {
   "property": "C07",
   "status": "proved",
   "theorems": [
    "C07_decode_terminates",
    "C07_nesting_bounded_by_length"
   ],
   "note": "Fuel is never exhausted for any input; nesting is bounded by input length."
  },
  {
   "property": "C08",
   "status": "partial",
   "theorems": [
    "C08_never_panics_refuted",
    "C08_panics_exactly",
    "C08_never_panics_partial"
   ],
   "note": "REFUTED: 12 bytes with header length 0, and a packet whose declared lengths exceed 2^16. C08_panics_exactly characterises all panicking inputs; the partial theorem gives the safe ones."
  },
  {
   "property": "C09",
   "status": "proved",
   "theorems": [
    "C09_record_decoders_return",
    "C09_subrecord_decoders_return"
   ],
   "note": "All record and subrecord decoders."
  },
  {
   "property": "C10",
   "status": "partial",
   "theorems": [
    "C10_truncation_detected_refuted",
    "C10_truncation_detected_partial",
    "C10_truncation_detected_exactly"
   ],
   "note": "REFUTED: dropping the last byte of a packet whose CRC16 high byte is 0 is accepted; partial: every other prefix is rejected. C10_truncation_detected_exactly: a proper prefix is accepted iff it lacks one zero byte."
  },
  {
   "property": "C11",
   "status": "partial",
   "theorems": [
    "C11_suffix_irrelevant_refuted",
    "C11_suffix_irrelevant_partial",
    "C11_suffix_irrelevant_exactly"
   ],
   "note": "REFUTED: with a declared header length of 14 the byte after the packet decides. Partial: irrelevant whenever the header length field is at most two too large; C11_suffix_irrelevant_exactly: for an acceptable packet, irrelevant if and only if the areas its header length declares lie inside it."
  },
  {
   "property": "C12",
   "status": "partial",
   "theorems": [
    "C12_receiver_irrelevant_refuted",
    "C12_receiver_irrelevant_partial",
    "C12_receiver_irrelevant_exactly",
    "C12_outcome_independent"
   ],
   "note": "REFUTED for the route fields of a reused Package; the outcome (code and error) is independent of the receiver, and for fresh fields the structure too. C12_receiver_irrelevant_exactly: when two receivers end up equal, and what each keeps."
  },
  {
   "property": "C13",
   "status": "partial",
   "theorems": [
    "C13_short_record_rejected_refuted",
    "C13_short_record_zero_padded",
    "C13_headless_record_accepted"
   ],
   "note": "REFUTED: a short record is padded with zeros; the theorems say exactly what is fabricated."
  },
  {
   "property": "C14",
   "status": "proved",
   "theorems": [
    "C14_package_roundtrip"
   ],
   "note": ""
  },
  {
   "property": "C15",
   "status": "proved",
   "theorems": [
    "C15_records_roundtrip"
   ],
   "note": ""
  },
  {
   "property": "C16",
   "status": "proved",
   "theorems": [
    "C16_subrecords_roundtrip"
   ],
   "note": ""
  },
  {
   "property": "C17",
   "status": "proved",
   "theorems": [
    "C17_pt_response_roundtrip",
    "C17_sr_response_roundtrip",
    "C17_result_code_roundtrip"
   ],
   "note": ""
  },
  {
   "property": "C18",
   "status": "proved",
   "theorems": [
    "C18_position_roundtrip"
   ],
   "note": ""
  },
  {
   "property": "C19",
   "status": "proved",
   "theorems": [
    "C19_coordinates_survive",
    "C19_decoded_in_range"
   ],
   "note": "Real-number error bounds with Flocq (stdlib axioms of Reals only)."
  },
  {
   "property": "C20",
   "status": "partial",
   "theorems": [
    "C20_reencode_refuted",
    "C20_reencode_partial",
    "C20_hops_partial"
   ],
   "note": "REFUTED (186415 -> 186414). Partial: for every wire value the result is v or v-1; n hops lose at most n."
  },
  {
   "property": "C21",
   "status": "partial",
   "theorems": [
    "C21_whole_seconds",
    "C21_floor_refuted",
    "C21_floor_partial",
    "C21_off_by_one_at_most",
    "C21_floor_iff"
   ],
   "note": "Whole seconds: proved for all 2^32 values. The floor of fractions is REFUTED at 999999999 ns; C21_floor_iff gives exactly the instants that are rounded up (all below 2^32-1 s)."
  },
  {
   "property": "C22",
   "status": "proved",
   "theorems": [
    "C22_ext_position_roundtrip"
   ],
   "note": ""
  },
  {
   "property": "C23",
   "status": "partial",
   "theorems": [
    "C23_ad_sensors_roundtrip_refuted",
    "C23_ad_sensors_roundtrip_iff",
    "C23_ad_flags_mirrored"
   ],
   "note": "REFUTED: the first analogue sensor comes back as the eighth. C23_ad_sensors_roundtrip_iff gives the exact domain of the round trip."
  },
  {
   "property": "C24",
   "status": "partial",
   "theorems": [
    "C24_counters_roundtrip_refuted",
    "C24_counters_roundtrip_iff",
    "C24_counters_seen"
   ],
   "note": "REFUTED: the second counter overwrites the first. C24_counters_roundtrip_iff gives the exact domain."
  },
  {
   "property": "C25",
   "status": "proved",
   "theorems": [
    "C25_term_identity_roundtrip"
   ],
   "note": ""
  },
  {
   "property": "C26",
   "status": "proved",
   "theorems": [
    "C26_auth_info_roundtrip"
   ],
   "note": ""
  },
  {
   "property": "C27",
   "status": "proved",
   "theorems": [
    "C27_dispatcher_identity_roundtrip"
   ],
   "note": ""
  },
  {
   "property": "C28",
   "status": "proved",
   "theorems": [
    "C28_state_roundtrip",
    "C28_state_types"
   ],
   "note": ""
  },
  {
   "property": "C29",
   "status": "partial",
   "theorems": [
    "C29_liquid_roundtrip_partial",
    "C29_wide_number_rejected_refuted",
    "C29_liquid_roundtrip_iff"
   ],
   "note": "C29_liquid_roundtrip_iff: exactly the values whose fields fit round-trip; the rejection of wide numbers is REFUTED: they corrupt the neighbouring flags."
  },
  {
   "property": "C30",
   "status": "proved",
   "theorems": [
    "C30_abs_counter",
    "C30_abs_analogue",
    "C30_roundtrip"
   ],
   "note": ""
  },
  {
   "property": "C31",
   "status": "partial",
   "theorems": [
    "C31_accepted_exactly",
    "C31_begun",
    "C31_cut_exactly",
    "C31_login_exactly",
    "C31_truncation_rejected_refuted",
    "C31_truncation_rejected_partial"
   ],
   "note": "REFUTED: a subrecord that ends inside its last field is accepted, and the missing bytes are those of another field (HDOP completed with VDOP's). Exactly: a subrecord of a fixed-layout type is accepted iff every field that its flags announce has its first byte (C31_accepted_exactly; C31_begun in one number), so of a complete one exactly the cuts inside the last field are accepted (C31_cut_exactly); a login iff it has two terminated strings and then nothing or a third (C31_login_exactly). The partial theorem bounds what may be missing for any subrecord except EGTS-PLUS (C110)."
  },
  {
   "property": "C32",
   "status": "proved",
   "theorems": [
    "C32_lengths",
    "C32_encode_panics_only_on_nil"
   ],
   "note": ""
  },
  {
   "property": "C33",
   "status": "proved",
   "theorems": [
    "C33_decoded_encodes"
   ],
   "note": "Under the hypothesis that the protobuf oracle marshals what it unmarshalled."
  },
  {
   "property": "C34",
   "status": "partial",
   "theorems": [
    "C34_reencode_identical_refuted",
    "C34_reencode_identical_partial"
   ],
   "note": "REFUTED by the packet of the repository's own test; the partial theorem states the packets reproduced exactly."
  },
  {
   "property": "C35",
   "status": "proved",
   "theorems": [
    "C35_encode_repeatable",
    "C35_lengths_left_behind"
   ],
   "note": ""
  },
  {
   "property": "C36",
   "status": "partial",
   "theorems": [
    "C36_declared_length_refuted",
    "C36_body_dropped_refuted",
    "C36_declared_length_partial",
    "C36_declared_length_exactly"
   ],
   "note": "REFUTED: a body of 65546 bytes is declared as 10, one of 65536 is dropped; C36_declared_length_exactly: declared modulo 2^16, right iff the body is below 2^16."
  },
  {
   "property": "C37",
   "status": "partial",
   "theorems": [
    "C37_type_inferred_refuted",
    "C37_type_inferred_partial",
    "C37_type_inferred_exactly"
   ],
   "note": "REFUTED for the dispatcher identity; C37_type_inferred_exactly: it alone (and nil) is refused, every other subrecord is encoded with its code."
  },
  {
   "property": "C38",
   "status": "proved",
   "theorems": [
    "C38_segmentation_irrelevant"
   ],
   "note": ""
  },
  {
   "property": "C39",
   "status": "proved",
   "theorems": [
    "C39_one_ack_per_packet"
   ],
   "note": ""
  },
  {
   "property": "C40",
   "status": "proved",
   "theorems": [
    "C40_reply_names_every_record"
   ],
   "note": ""
  },
  {
   "property": "C41",
   "status": "proved",
   "theorems": [
    "C41_positions_saved_once"
   ],
   "note": ""
  },
  {
   "property": "C42",
   "status": "proved",
   "theorems": [
    "C42_save_before_ack"
   ],
   "note": ""
  },
  {
   "property": "C43",
   "status": "partial",
   "theorems": [
    "C43_ack_means_stored_refuted",
    "C43_ack_means_stored_partial",
    "C43_stored_exactly"
   ],
   "note": "REFUTED: Save errors are only logged; partial: if all storages accept, then stored."
  },
  {
   "property": "C44",
   "status": "proved",
   "theorems": [
    "C44_rejected_packet"
   ],
   "note": ""
  },
  {
   "property": "C45",
   "status": "proved",
   "theorems": [
    "C45_alien_disconnected"
   ],
   "note": ""
  },
  {
   "property": "C46",
   "status": "partial",
   "theorems": [
    "C46_last_object",
    "C46_own_object_refuted",
    "C46_own_object_partial"
   ],
   "note": "REFUTED: all positions of a packet go to the object of the last record (C46_last_object, for every packet); partial: single-object packets."
  },
  {
   "property": "C47",
   "status": "partial",
   "theorems": [
    "C47_hemisphere_never_used",
    "C47_hemisphere_refuted"
   ],
   "note": "REFUTED: hemisphere flags are not used when storing (C47_hemisphere_never_used: for no packet)."
  },
  {
   "property": "C48",
   "status": "partial",
   "theorems": [
    "C48_packet_number_refuted",
    "C48_packet_number_iff"
   ],
   "note": "REFUTED; C48_packet_number_iff gives exactly when the number is right."
  },
  {
   "property": "C49",
   "status": "partial",
   "theorems": [
    "C49_no_crash_refuted",
    "C49_twelve_bytes_refuted",
    "C49_crashes_exactly",
    "C49_no_crash_partial"
   ],
   "note": "REFUTED by one packet in every environment, and by twelve bytes; C49_crashes_exactly characterises all crashing inputs."
  },
  {
   "property": "C50",
   "status": "proved",
   "theorems": [
    "C50_isolation"
   ],
   "note": ""
  },
  {
   "property": "C51",
   "status": "partial",
   "theorems": [
    "C51_idle_closed_refuted",
    "C51_open_peer_refuted",
    "C51_closed_after_eof_partial",
    "C51_same_actions",
    "C51_close_time"
   ],
   "note": "REFUTED: the timer is only consulted after EOF; partial: behaviour after EOF, exactly. With the times of every byte and of the handler's work (Timed.v): C51_close_time gives the exact moment at which the connection is closed, or that it never is; C51_same_actions ties the timed model to the server model."
  },
  {
   "property": "C52",
   "status": "proved",
   "theorems": [
    "C52_save_reaches_all",
    "C52_save_stops_at_error",
    "C52_in_every_execution"
   ],
   "note": ""
  },
  {
   "property": "C53",
   "status": "proved",
   "theorems": [
    "C53_loaded_iff",
    "C53_any_order",
    "C53_failure_reported"
   ],
   "note": ""
  },
  {
   "property": "C54",
   "status": "partial",
   "theorems": [
    "C54_result_decodable_refuted",
    "C54_result_decodable_partial"
   ],
   "note": "REFUTED for every packet id: rejected with 129; partial: what the packet would be under packet type 1."
  },
  {
   "property": "C55",
   "status": "proved",
   "theorems": [
    "C55_confirmations_silent",
    "C55_no_storm"
   ],
   "note": ""
  },
  {
   "property": "C56",
   "status": "proved",
   "theorems": [
    "C56_packet_gen_accepted",
    "C56_packet_gen_reports_success"
   ],
   "note": ""
  },
  {
   "property": "C57",
   "status": "partial",
   "theorems": [
    "C57_time_honoured_refuted",
    "C57_saved_time_refuted",
    "C57_exit_status_refuted"
   ],
   "note": "REFUTED: -time is ignored, the exit status is never 0."
  },
  {
   "property": "C58",
   "status": "proved",
   "theorems": [
    "C58_sensors_saved"
   ],
   "note": ""
  },
  {
   "property": "C59",
   "status": "partial",
   "theorems": [
    "C59_stop_ends_run_refuted",
    "C59_stop_partial"
   ],
   "note": "REFUTED: Run never returns; partial: what Stop achieves."
  },
  {
   "property": "C60",
   "status": "proved",
   "theorems": [
    "C60_address",
    "C60_ttl",
    "C60_log_level"
   ],
   "note": ""
  },
  {
   "property": "C61",
   "status": "proved",
   "theorems": [
    "C61_storage_order"
   ],
   "note": ""
  },
  {
   "property": "C62",
   "status": "partial",
   "theorems": [
    "C62_same_order_partial",
    "C62_same_records",
    "C62_same_order_refuted"
   ],
   "note": "REFUTED by an interleaving of two connections; partial: the order agrees for each connection, the later storage being at most one record behind, and all storages end up with the same records."
  },
  {
   "property": "C63",
   "status": "partial",
   "theorems": [
    "C63_config_determines_storages_refuted",
    "C63_config_determines_storages_partial",
    "C63_order_irrelevant_iff"
   ],
   "note": "REFUTED: after a failing entry the active storages depend on map order; partial: without failing entries. Exact condition for the order to be irrelevant proved (C63_order_irrelevant_iff)."
  },
  {
   "property": "C64",
   "status": "partial",
   "theorems": [
    "C64_redis_db_default_refuted",
    "C64_redis_accepted_iff"
   ],
   "note": "REFUTED: an absent db is refused; C64_redis_accepted_iff gives exactly the accepted sections."
  },
  {
   "property": "C65",
   "status": "partial",
   "theorems": [
    "C65_receiver_goes_on_partial",
    "C65_backend_failure_survived_refuted",
    "C65_backend_failure_survived_partial"
   ],
   "note": "REFUTED for redis (panic); partial: all other connectors: Save returns an error exactly when the library does, and the whole receiver goes on (C65_receiver_goes_on_partial: it dies only of what a client sends, and clients get the same answers as with backends that never fail)."
  },
  {
   "property": "C66",
   "status": "proved",
   "theorems": [
    "C66_destination",
    "C66_opened_exactly"
   ],
   "note": ""
  },
  {
   "property": "C67",
   "status": "proved",
   "theorems": [
    "C67_empty_section_refused"
   ],
   "note": ""
  },
  {
   "property": "C68",
   "status": "proved",
   "theorems": [
    "C68_encoded_packet_received"
   ],
   "note": ""
  },
  {
   "property": "C69",
   "status": "partial",
   "theorems": [
    "C69_packet_gen_survives_refuted",
    "C69_dies_exactly"
   ],
   "note": "REFUTED: a positive response without records panics."
  },
  {
   "property": "C70",
   "status": "proved",
   "theorems": [
    "C70_decode_strictly_monotone",
    "C70_encode_monotone"
   ],
   "note": ""
  },
  {
   "property": "C71",
   "status": "proved",
   "theorems": [
    "C71_saved_coordinates_in_range"
   ],
   "note": ""
  },
  {
   "property": "C72",
   "status": "partial",
   "theorems": [
    "C72_out_of_range_rejected_refuted"
   ],
   "note": "REFUTED: Encode succeeds for every coordinate and another one arrives."
  },
  {
   "property": "C73",
   "status": "proved",
   "theorems": [
    "C73_packet_read",
    "C73_subrecord_read",
    "C73_subrecords_read",
    "C73_records_read"
   ],
   "note": ""
  },
  {
   "property": "C74",
   "status": "proved",
   "theorems": [
    "C74_packet_written",
    "C74_subrecord_written",
    "C74_records_written",
    "C74_counters_written"
   ],
   "note": ""
  },
  {
   "property": "C75",
   "status": "partial",
   "theorems": [
    "C75_heading_refuted",
    "C75_heading_partial",
    "C75_heading_exactly"
   ],
   "note": "REFUTED: from 256 degrees on Direction is 128 less; exactly the headings below 256 are right (C75_heading_exactly); below 384 the heading is recoverable from Direction and DirectionHighestBit."
  },
  {
   "property": "C76",
   "status": "partial",
   "theorems": [
    "C76_source_data_refuted",
    "C76_source_data_partial"
   ],
   "note": "REFUTED with an altitude: the first source data byte becomes the altitude's top byte (exact result given); partial: without altitude."
  },
  {
   "property": "C77",
   "status": "proved",
   "theorems": [
    "C77_complete_accepted"
   ],
   "note": ""
  },
  {
   "property": "C78",
   "status": "proved",
   "theorems": [
    "C78_position_time_exact",
    "C78_stored_times_exact"
   ],
   "note": ""
  },
  {
   "property": "C79",
   "status": "proved",
   "theorems": [
    "C79_texts_sort_by_time"
   ],
   "note": ""
  },
  {
   "property": "C80",
   "status": "proved",
   "theorems": [
    "C80_record_serialises"
   ],
   "note": ""
  },
  {
   "property": "C81",
   "status": "partial",
   "theorems": [
    "C81_identifier_preserved_refuted",
    "C81_identifier_preserved_partial",
    "C81_identifier_preserved_iff"
   ],
   "note": "REFUTED: bytes that are not UTF-8 become U+FFFD, two terminals get the same document; C81_identifier_preserved_iff: preserved if and only if it is valid UTF-8."
  },
  {
   "property": "C82",
   "status": "partial",
   "theorems": [
    "C82_lists_are_arrays_refuted",
    "C82_lists_are_arrays_partial"
   ],
   "note": "REFUTED: empty sensor lists are null; partial: positions always a non-empty array of the stated length, sensors null exactly without readings."
  },
  {
   "property": "C83",
   "status": "proved",
   "theorems": [
    "C83_document_identifies_record"
   ],
   "note": ""
  },
  {
   "property": "C84",
   "status": "proved",
   "theorems": [
    "C84_only_the_backend_fails"
   ],
   "note": ""
  },
  {
   "property": "C85",
   "status": "proved",
   "theorems": [
    "C85_startup"
   ],
   "note": ""
  },
  {
   "property": "C86",
   "status": "proved",
   "theorems": [
    "C86_end_to_end",
    "C86_asked_in_order"
   ],
   "note": ""
  },
  {
   "property": "C87",
   "status": "partial",
   "theorems": [
    "C87_ack_means_handed_over_refuted",
    "C87_ack_means_handed_over_partial"
   ],
   "note": "REFUTED: a section that does not open hides the good ones after it; the process falls back to its log, acknowledges and makes no library call; partial: every section opens and the backends accept everything."
  },
  {
   "property": "C88",
   "status": "proved",
   "theorems": [
    "C88_short_burst_detected",
    "C88_tail_burst_detected",
    "C88_limit"
   ],
   "note": "12 bits is the exact limit after the header (C88_limit)."
  },
  {
   "property": "C89",
   "status": "proved",
   "theorems": [
    "C89_damage_is_contained"
   ],
   "note": ""
  },
  {
   "property": "C90",
   "status": "proved",
   "theorems": [
    "C90_every_stream",
    "C90_units"
   ],
   "note": ""
  },
  {
   "property": "C91",
   "status": "proved",
   "theorems": [
    "C91_process_dies_iff",
    "C91_inevitable"
   ],
   "note": ""
  },
  {
   "property": "C92",
   "status": "proved",
   "theorems": [
    "C92_prefixes_accepted"
   ],
   "note": ""
  },
  {
   "property": "C93",
   "status": "proved",
   "theorems": [
    "C93_reuse"
   ],
   "note": ""
  },
  {
   "property": "C94",
   "status": "partial",
   "theorems": [
    "C94_length_damage_contained_refuted",
    "C94_length_damage_contained_partial"
   ],
   "note": "REFUTED: one inverted bit in the frame length makes the receiver swallow the next 32 kilobytes without an answer; partial: when the swallowed bytes end with a packet, one 137 is sent and later packets are unaffected."
  },
  {
   "property": "C95",
   "status": "proved",
   "theorems": [
    "C95_success_exactly",
    "C95_program_success_exactly",
    "C95_refusal_reported"
   ],
   "note": ""
  },
  {
   "property": "C96",
   "status": "partial",
   "theorems": [
    "C96_success_means_confirmed_refuted",
    "C96_success_means_confirmed_partial"
   ],
   "note": "REFUTED: a response with a record that confirms nothing is announced as success; partial: no confirmation in the reply is negative."
  },
  {
   "property": "C97",
   "status": "proved",
   "theorems": [
    "C97_document_describes_package",
    "C97_fails_exactly",
    "C97_any_instant",
    "C97_built_fails_exactly",
    "C97_calendar_bounds"
   ],
   "note": ""
  },
  {
   "property": "C98",
   "status": "partial",
   "theorems": [
    "C98_document_identifies_package_refuted",
    "C98_document_identifies_package_partial"
   ],
   "note": "REFUTED: identifiers that are not UTF-8 are replaced, and two packets with equal checksums get the same text; partial: proved when the texts are valid UTF-8 and the reader tells floats and EGTS-PLUS messages apart."
  },
  {
   "property": "C99",
   "status": "proved",
   "theorems": [
    "C99_echo_dies_out"
   ],
   "note": ""
  },
  {
   "property": "C100",
   "status": "proved",
   "theorems": [
    "C100_plus_roundtrip"
   ],
   "note": ""
  },
  {
   "property": "C101",
   "status": "proved",
   "theorems": [
    "C101_plus_decodes_exactly",
    "C101_as_documented",
    "C101_unambiguous"
   ],
   "note": ""
  },
  {
   "property": "C102",
   "status": "proved",
   "theorems": [
    "C102_required_fields"
   ],
   "note": ""
  },
  {
   "property": "C103",
   "status": "proved",
   "theorems": [
    "C103_decoded_encodes",
    "C103_encodings_differ"
   ],
   "note": ""
  },
  {
   "property": "C104",
   "status": "proved",
   "theorems": [
    "C104_unknown_fields_survive",
    "C104_sensor_fields_survive"
   ],
   "note": ""
  },
  {
   "property": "C105",
   "status": "proved",
   "theorems": [
    "C105_field_order"
   ],
   "note": ""
  },
  {
   "property": "C106",
   "status": "proved",
   "theorems": [
    "C106_accepted_encodes",
    "C106_record_well_formed"
   ],
   "note": ""
  },
  {
   "property": "C107",
   "status": "proved",
   "theorems": [
    "C107_document_describes_message",
    "C107_fails_exactly"
   ],
   "note": "Float texts are an oracle: any text the JSON reader accepts as a number."
  },
  {
   "property": "C108",
   "status": "partial",
   "theorems": [
    "C108_document_identifies_message_refuted",
    "C108_document_identifies_message_partial"
   ],
   "note": "REFUTED: fields unknown to the schema and byte strings that are present but empty leave no trace; partial: those are the only losses (same text iff equal up to them), given that the reader tells floats apart."
  },
  {
   "property": "C109",
   "status": "proved",
   "theorems": [
    "C109_package_document",
    "C109_fails_exactly",
    "C109_package_identified"
   ],
   "note": "C97/C98 with the protobuf library and the message's JSON modelled. Identification assumes UTF-8 texts, messages without unknown fields or empty byte strings, and a reader that tells floats apart."
  },
  {
   "property": "C110",
   "status": "proved",
   "theorems": [
    "C110_truncation_exactly",
    "C110_prefix_fields"
   ],
   "note": ""
  },
  {
   "property": "C111",
   "status": "proved",
   "theorems": [
    "C111_concatenation_merges"
   ],
   "note": ""
  },
  {
   "property": "C112",
   "status": "proved",
   "theorems": [
    "C112_output_bounded"
   ],
   "note": ""
  },
  {
   "property": "C113",
   "status": "proved",
   "theorems": [
    "C113_code_exactly",
    "C113_codes"
   ],
   "note": ""
  },
  {
   "property": "C114",
   "status": "partial",
   "theorems": [
    "C114_encoded_is_accepted_refuted",
    "C114_accepted_exactly",
    "C114_encoded_is_accepted_partial"
   ],
   "note": "REFUTED: a package without records is encoded as a bare header, which Decode refuses with 132. Exact condition proved (C114_accepted_exactly); partial: well-formed packages with a record."
  },
  {
   "property": "C115",
   "status": "partial",
   "theorems": [
    "C115_memory_proportional_refuted",
    "C115_each_level",
    "C115_memory_bounded_partial"
   ],
   "note": "REFUTED: nested confirmations with declared record length 65535 make Decode hold 65535 bytes for every 13 bytes received, 330 MB for one 64 KB packet that the receiver hands to Decode; the body checksum is not checked before. Partial: that is the worst case, on every input."
  },
  {
   "property": "C116",
   "status": "partial",
   "theorems": [
    "C116_flag_strings_refused_refuted",
    "C116_subrecord_flags_exactly",
    "C116_record_flags_exactly",
    "C116_package_flags_exactly",
    "C116_flags_refused_partial",
    "C116_package_refused",
    "C116_term_never_refused"
   ],
   "note": "REFUTED: the strings are run together before parsing, so Compression \"1\" with Priority \"1\" arrives as Compression \"0\", Priority \"11\"; SrTermIdentity ignores the parse error (the error variable is overwritten, egts_sr_term_identity.go:130-131) and writes flags 0. Exact conditions proved for subrecords, records and packages; partial: what is refused."
  },
  {
   "property": "C117",
   "status": "partial",
   "theorems": [
    "C117_decoded_as_given_refuted",
    "C117_decoded_as_given_exactly",
    "C117_decoded_as_given_partial"
   ],
   "note": "REFUTED: an IMEI of 16 digits shifts the following fields, an MSISDN of 11 digits comes back with NULs, and C18, C23, C24, C29. Exact set of values proved (C117_decoded_as_given_exactly)."
  },
  {
   "property": "C118",
   "status": "partial",
   "theorems": [
    "C118_used_is_new_refuted",
    "C118_used_exactly",
    "C118_same_result_iff",
    "C118_pt_response_exactly",
    "C118_used_is_new_partial"
   ],
   "note": "REFUTED: absent optional fields keep their old values (altitude, IMEI, sensors, counters, server sequence, records of a confirmation), and sets of records are appended to. Exact result proved for every type (C118_used_exactly, C118_pt_response_exactly); partial: types without optional fields. (Package: C93.)"
  },
  {
   "property": "C119",
   "status": "partial",
   "theorems": [
    "C119_written_takes_effect_refuted",
    "C119_accepted_partial",
    "C119_settings_partial",
    "C119_empty_partial"
   ],
   "note": "REFUTED: unknown keys are ignored without a word, and the file that is shipped (configs/receiver.yaml:3, also README.md:80) gives the time to live as con_live_sec, which the program does not know (it reads conn_ttl): the receiver runs with a time to live of 0. The partial theorems are the exact rule: which documents are accepted (C119_accepted_partial) and what each setting then is (C119_settings_partial)."
  },
  {
   "property": "C120",
   "status": "proved",
   "theorems": [
    "C120_expressible",
    "C120_settings_determined"
   ],
   "note": ""
  },
  {
   "property": "C121",
   "status": "partial",
   "theorems": [
    "C121_settings_reach_driver_refuted",
    "C121_settings_reach_driver_exactly",
    "C121_settings_reach_driver_partial"
   ],
   "note": "REFUTED: the connection string is built with Sprintf and no quoting, so an empty password makes the driver take \"sslmode=disable\" for the password (and leaves sslmode at its default), a password with a space is refused or overrides other parameters (\"x dbname=other\"). C121_settings_reach_driver_exactly is the exact condition (if and only if) under which the six settings arrive; _partial is the case of ordinary values."
  },
  {
   "property": "C122",
   "status": "partial",
   "theorems": [
    "C122_options_respected_refuted",
    "C122_options_ignored"
   ],
   "note": "REFUTED: the options are decoded and then never looked at. C122_options_ignored: for every type, number and body, packets that differ only in header options are stored and answered alike; in particular a body marked as encrypted or compressed is read as plain records."
  },
  {
   "property": "C123",
   "status": "partial",
   "theorems": [
    "C123_validity_respected_refuted",
    "C123_only_essence_matters"
   ],
   "note": "REFUTED. C123_only_essence_matters says exactly what is looked at (Spec_Policy, record_essence): packet number, record number, object, service, and of the subrecords time, coordinates, speed, identifier, sensor readings, levels and the counters 110 and 111; validity, fix, black-box, direction, altitude, odometer and hemisphere flags are not."
  },
  {
   "property": "C124",
   "status": "partial",
   "theorems": [
    "C124_stored_once_refuted"
   ],
   "note": "REFUTED for every packet: n copies on a connection do n times what one copy does (C124_stored_once_refuted)."
  },
  {
   "property": "C125",
   "status": "partial",
   "theorems": [
    "C125_service_of_the_last",
    "C125_own_service_refuted",
    "C125_own_service_partial"
   ],
   "note": "REFUTED for packets whose records name different services: all are confirmed by one record under the service of the last (C125_service_of_the_last, exact). C125_own_service_partial: true when all records name one service."
  },
  {
   "property": "C126",
   "status": "partial",
   "theorems": [
    "C126_reply_number",
    "C126_own_numbers_refuted",
    "C126_own_numbers_partial"
   ],
   "note": "REFUTED: every reply to a packet bears the number of that packet plus one (C126_reply_number, exact), so the two replies to credentials share a number. C126_own_numbers_partial: packets with different numbers are answered under different numbers."
  },
  {
   "property": "C127",
   "status": "partial",
   "theorems": [
    "C127_settings_reach_client_refuted",
    "C127_settings_reach_client_exactly",
    "C127_settings_reach_client_partial",
    "C127_defaults",
    "C127_ip6_hosts",
    "C127_escaped_reach_client",
    "C127_escapable"
   ],
   "note": "REFUTED: the settings are put into a URL unescaped, so a password with / % # ? or a space fails, is changed, or sends the client to another host as guest. Proved exactly: with an ordinary host name and port number the client connects with the settings iff user and password consist of letters, digits and - . _ : ~ ! $ & ' ( ) * + , ; = @ (no colon in the user). The partial theorem is the sufficient direction. streadway/amqp and net/url are modelled from their sources as remembered; IPv6 zones are not. C127_escaped_reach_client: percent-encoded in the section, every user and password reaches the client, and C127_escapable: every one can be so encoded. C127_ip6_hosts: with an IPv6 address as the host, in brackets or not, the client connects to that address."
  },
  {
   "property": "C128",
   "status": "partial",
   "theorems": [
    "C128_file_replayed_refuted",
    "C128_spaced_file_replayed_partial",
    "C128_file_replayed_partial"
   ],
   "note": "REFUTED: it cuts the last character of every line, so the last packet of a file without a final line feed is never sent (ValueError), and it waits for an answer after each packet, so a response packet, which the receiver does not answer, makes it wait for ever. Proved: a file whose lines all end with a line feed and hold packets the receiver answers is sent completely, whatever pieces of the answers each recv returns."
  },
  {
   "property": "C129",
   "status": "proved",
   "theorems": [
    "C129_storage_bounded",
    "C129_bound_reached"
   ],
   "note": "21 is exact (C129_bound_reached): a 21-byte packet makes the receiver save a position that consists of the decoder's zeros."
  },
  {
   "property": "C130",
   "status": "partial",
   "theorems": [
    "C130_failed_storage_leaves_nothing_refuted",
    "C130_left_open_exactly",
    "C130_start_exactly",
    "C130_same_storages"
   ],
   "note": "REFUTED: rabbitmq (channel refused), postgresql (ping fails) and redis (no queue) leave one handle open that nothing in use knows. Exactly these half-open failures do; nats, nsq and tarantool never do."
  },
  {
   "property": "C131",
   "status": "partial",
   "theorems": [
    "C131_close_tells",
    "C131_close_after_failure",
    "C131_close_tries_everything_refuted",
    "C131_nothing_lost",
    "C131_reopened_lost",
    "C131_failed_reopen_lost"
   ],
   "note": "REFUTED in part: a rabbitmq channel that does not close keeps the connection open untried; Init on an open connector loses the former connection for ever. Proved: after a successful Init, Close returns no error exactly when all is released; after a failed one it cleans up; nothing is lost if Init is not called while something is open."
  },
  {
   "property": "C132",
   "status": "partial",
   "theorems": [
    "C132_served_exactly",
    "C132_stop_ends_run_refuted",
    "C132_early_stop_refuted"
   ],
   "note": "REFUTED in part: after Stop Run goes on for ever, logging an error each turn; a Stop before Run reports success and stops nothing. The connections served are proved to be exactly those offered before Stop."
  },
  {
   "property": "C133",
   "status": "partial",
   "theorems": [
    "C133_decoded_as_given_refuted",
    "C133_package_exactly",
    "C133_records_exactly",
    "C133_subrecords_exactly"
   ],
   "note": "REFUTED by a record whose flags say there is no object number while its OID field is 5: it is encoded, accepted and comes back with 0 (C133_decoded_as_given_refuted). C133_package_exactly, C133_records_exactly and C133_subrecords_exactly give the exact condition."
  },
  {
   "property": "C134",
   "status": "partial",
   "theorems": [
    "C134_records_in_log_refuted",
    "C134_exported_exactly"
   ],
   "note": "REFUTED: with log_level WARN or ERROR and no storage section the receiver reports every record as saved, acknowledges it, and writes it nowhere (C134_records_in_log_refuted). C134_exported_exactly: a record is exported exactly if log_level is neither WARN nor ERROR."
  },
  {
   "property": "C135",
   "status": "partial",
   "theorems": [
    "C135_same_actions",
    "C135_levels",
    "C135_nothing_lost_silently_refuted",
    "C135_noted_exactly",
    "C135_error_level",
    "C135_services_exactly",
    "C135_info_exactly"
   ],
   "note": "REFUTED: an accepted packet that holds a position and a confirmation of a record is neither stored nor acknowledged and leaves nothing at WARN level; a peer that does not speak EGTS is dropped with nothing at ERROR level (C135_nothing_lost_silently_refuted). C135_noted_exactly gives the lines at WARN level for every stream, C135_error_level those at ERROR level, C135_levels the logger's filter; C135_services_exactly gives the service lines at INFO level; C135_same_actions ties the log model to the server model. C135_info_exactly gives the whole log at INFO level."
  },
  {
   "property": "C136",
   "status": "proved",
   "theorems": [
    "C136_logins_not_written"
   ],
   "note": "C136_logins_not_written: equal diaries (log lines and actions in order). Log lines are modelled without the peer's address and error texts; accepted packets only, so no error text depends on the login."
  },
  {
   "property": "C137",
   "status": "partial",
   "theorems": [
    "C137_one_timer_refuted",
    "C137_timers_exactly",
    "C137_timers_partial"
   ],
   "note": "REFUTED: every packet leaves its timer running for another conn_ttl (C137_one_timer_refuted: no bound). C137_timers_exactly lists the timers made and reset; C137_timers_partial gives the number at any time, up to the one that is being waited on: the packets whose header arrived within the last conn_ttl."
  },
  {
   "property": "C138",
   "status": "partial",
   "theorems": [
    "C138_released_at_once_refuted",
    "C138_released_exactly"
   ],
   "note": "REFUTED: after a clean end the connection is kept until conn_ttl after the last packet was dealt with (C138_released_at_once_refuted). C138_released_exactly: it is released at once exactly when the stream breaks, or ends inside a packet, or the last packet is conn_ttl ago."
  },
  {
   "property": "C139",
   "status": "proved",
   "theorems": [
    "C139_taken_up",
    "C139_no_delay"
   ],
   "note": "C139_taken_up gives the times at which packets are taken up and the actions of each; C139_no_delay: while the handler keeps up, the time is that of the last byte."
  },
  {
   "property": "C140",
   "status": "proved",
   "theorems": [
    "C140_received_times",
    "C140_received_in_order"
   ],
   "note": "C140_received_times for the instants, C140_received_in_order for the order of the texts; the clock is the one of Timed.v (an assumption: it is not set back)."
  },
  {
   "property": "C141",
   "status": "proved",
   "theorems": [
    "C141_nothing_lost",
    "C141_positions_stored"
   ],
   "note": ""
  },
  {
   "property": "C142",
   "status": "partial",
   "theorems": [
    "C142_owed",
    "C142_unread_exactly",
    "C142_unread_partial",
    "C142_unread_stored_refuted"
   ],
   "note": "REFUTED: Write has no deadline, so a peer that takes R bytes of replies and sends one packet n times has R/29 + 1 of them stored, and the goroutine stays for ever (C142_unread_stored_refuted, every R and n). C142_unread_exactly is exact; partial: all is stored when the replies fit."
  },
  {
   "property": "C143",
   "status": "partial",
   "theorems": [
    "C143_documented_settings_refuted",
    "C143_other_keys_ignored",
    "C143_effective_exactly"
   ],
   "note": "REFUTED: the nsq connector documents `servers` and reads `server`, so its documented configuration connects to the empty address; the rabbitmq connector documents `exchange_type` and never reads it. C143_other_keys_ignored and C143_effective_exactly say exactly which settings take effect; that settings differ is meant at the calls of the client libraries (C121, C127 say what the libraries read from a DSN or URL)."
  },
  {
   "property": "C144",
   "status": "partial",
   "theorems": [
    "C144_ack_awaited_refuted",
    "C144_success_exactly",
    "C144_waits_as_asked"
   ],
   "note": "REFUTED: without -timeout (documented default 5) the deadline is the present moment and Read fails at once, so packet-gen never reports success; likewise from 9223372037 seconds on. C144_success_exactly and C144_waits_as_asked say what holds. The behaviour of a deadline that is not in the future is taken from Go's internal/poll."
  },
  {
   "property": "C145",
   "status": "partial",
   "theorems": [
    "C145_split_reply_refuted",
    "C145_split_reply_exactly"
   ],
   "note": "REFUTED: there is one Read; a reply whose first part arrives alone is judged by that part. C145_split_reply_exactly says which cuts are harmless."
  },
  {
   "property": "C146",
   "status": "partial",
   "theorems": [
    "C146_login_required_refuted",
    "C146_login_changes_nothing",
    "C146_credentials_unchecked"
   ],
   "note": "REFUTED: a connection that never logs in has all its positions stored and acknowledged. C146_login_changes_nothing and C146_credentials_unchecked say how little a login does (for every stream)."
  },
  {
   "property": "C147",
   "status": "partial",
   "theorems": [
    "C147_identity_stored_refuted",
    "C147_identity_exactly"
   ],
   "note": "REFUTED: a terminal that identifies itself in one packet and sends its position in the next is stored without IMEI. C147_identity_exactly gives the IMEI of every record of a stream."
  },
  {
   "property": "C148",
   "status": "partial",
   "theorems": [
    "C148_values_sent_refuted",
    "C148_never_south_or_west",
    "C148_same_packet_exactly",
    "C148_packet_bytes"
   ],
   "note": "REFUTED: numbers out of range are sent modulo the size of their field (-pid 65536 sends packet 0), and every position is sent as northern and eastern (C148_never_south_or_west). C148_same_packet_exactly says which parameters send the same packet; C148_packet_bytes gives the packet byte for byte."
  },
  {
   "property": "C149",
   "status": "partial",
   "theorems": [
    "C149_hung_exactly",
    "C149_nothing_more",
    "C149_as_server",
    "C149_isolated_refuted"
   ],
   "note": "REFUTED: C149_isolated_refuted (two storages, the first does not answer: whatever the number of packets, the second gets nothing, no packet is confirmed and the connection is never closed). C149_hung_exactly says exactly which records each storage gets, which replies are sent, and that the goroutine stays; C149_nothing_more: for storages that behave in any way, a call that does not return is as a failing call with nothing after it. C149_as_server: with storages that answer every call, Hang.v gives the events of the executions of Server.v."
  },
  {
   "property": "C150",
   "status": "proved",
   "theorems": [
    "C150_number_read_back",
    "C150_name_read_back",
    "C150_text_identifies"
   ],
   "note": ""
  },
  {
   "property": "C151",
   "status": "partial",
   "theorems": [
    "C151_only_reasons_refuted",
    "C151_accepted_exactly",
    "C151_text_read_back_exactly",
    "C151_panics_exactly"
   ],
   "note": "REFUTED: C151_only_reasons_refuted (null is read as 0 and any 32-bit number as itself, named or not, while the quoted text of an unnamed value is refused). C151_accepted_exactly gives every accepted text with its value, C151_text_read_back_exactly which texts of String come back, C151_panics_exactly the one input on which the method panics (no bytes)."
  },
  {
   "property": "C152",
   "status": "partial",
   "theorems": [
    "C152_address_read_exactly",
    "C152_listens_as_configured_refuted",
    "C152_listens_as_configured_exactly",
    "C152_listens_exactly"
   ],
   "note": "REFUTED for IPv6 hosts without brackets; C152_listens_as_configured_exactly and C152_listens_exactly say when it holds and what is listened on otherwise, C152_address_read_exactly that the model of net.SplitHostPort takes exactly host:port and [host]:port"
  },
  {
   "property": "C153",
   "status": "partial",
   "theorems": [
    "C153_table_as_named_refuted",
    "C153_table_as_named_exactly",
    "C153_capitals_lowered",
    "C153_quoted_as_named"
   ],
   "note": "REFUTED for capitals and hyphens; C153_table_as_named_exactly says when it holds, C153_capitals_lowered and C153_quoted_as_named what happens otherwise and what can be done"
  }
 ]
}