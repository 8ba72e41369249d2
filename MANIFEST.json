{
 "claims": [
  {
   "property": "C01",
   "status": "proved",
   "theorems": [
    "C01_imsi_roundtrip",
    "C01_imsi_injective",
    "C01_imsi_octets"
   ],
   "note": "exact round trip for every digit string, buffer capacity and buffer size"
  },
  {
   "property": "C02",
   "status": "partial",
   "theorems": [
    "C02_bcd_decode_overflow_iff",
    "C02_bcd_decode_even_safe_partial",
    "C02_bcd_decode_in_bounds_refuted"
   ],
   "note": "false of the code: an odd out_len overflows by one; exact overflow condition proved, safety proved for even sizes"
  },
  {
   "property": "C03",
   "status": "proved",
   "theorems": [
    "C03_bcd_decode_shape"
   ],
   "note": "output characterised exactly"
  },
  {
   "property": "C04",
   "status": "partial",
   "theorems": [
    "C04_imsi_encode_overflow_iff",
    "C04_imsi_encode_honours_out_len_refuted"
   ],
   "note": "false of the code: out_len is ignored; exact overflow condition and a 33 digit witness"
  },
  {
   "property": "C05",
   "status": "proved",
   "theorems": [
    "C05_tla_roundtrip",
    "C05_tla_encoding_format",
    "C05_tla_other_family"
   ],
   "note": ""
  },
  {
   "property": "C06",
   "status": "proved",
   "theorems": [
    "C06_tla_decode_exact"
   ],
   "note": ""
  },
  {
   "property": "C07",
   "status": "partial",
   "theorems": [
    "C07_legacy_agrees_ipv4_partial",
    "C07_legacy_in_bounds",
    "C07_legacy_exact",
    "C07_text",
    "C07_legacy_agrees_refuted"
   ],
   "note": "false of the code: any address of four or more octets is printed as IPv4; agreement proved on all IPv4 formats"
  },
  {
   "property": "C08",
   "status": "proved",
   "theorems": [
    "C08_rtp_port_roundtrip",
    "C08_rtp_address",
    "C08_rtp_null_iff",
    "C08_port_decode_exact"
   ],
   "note": ""
  },
  {
   "property": "C09",
   "status": "partial",
   "theorems": [
    "C09_gtp_not_rtp_refuted",
    "C09_gtp_refused_partial"
   ],
   "note": "false of the code: the present field is not looked at; witness TEI 0x12340000; for every TEI what is answered"
  },
  {
   "property": "C10",
   "status": "proved",
   "theorems": [
    "C10_gtp_tei",
    "C10_gtp_null_iff"
   ],
   "note": ""
  },
  {
   "property": "C11",
   "status": "proved",
   "theorems": [
    "C11_parse_lai_total",
    "C11_parse_lai_digits"
   ],
   "note": "the digit value, the acceptance condition and totality, for all inputs"
  },
  {
   "property": "C12",
   "status": "partial",
   "theorems": [
    "C12_mnc_digits_told_apart_refuted",
    "C12_grnc_parse_digits",
    "C12_grnc_parse_total",
    "C12_same_plmn_in_lai_and_grnc_refuted"
   ],
   "note": "false of the code: the 3-digit flag is dropped, and LAI and Global RNC-ID use different digit orders; witnesses and the exact value of the Global RNC-ID parser for all digits"
  },
  {
   "property": "C13",
   "status": "partial",
   "theorems": [
    "C13_ip_plain_vs_x213",
    "C13_ip_accepts_iff",
    "C13_ip_value",
    "C13_ip_consistent_refuted",
    "C13_own_x213_encoding_accepted_refuted"
   ],
   "note": "false of the code: the plain form is byte-swapped on little endian hosts and the library's own 20 octet X.213 form is refused; exact relation proved"
  },
  {
   "property": "C14",
   "status": "partial",
   "theorems": [
    "C14_never_empty_refuted",
    "C14_generated_partial"
   ],
   "note": "false of the code: a PDU that does not fit 1024 octets is handed out as an empty buffer; exact condition proved for all four generators"
  },
  {
   "property": "C15",
   "status": "partial",
   "theorems": [
    "C15_error_ind_refuted",
    "C15_error_ind_partial"
   ],
   "note": "false of the code: with a Global RNC-ID the presence mask is overwritten, for all arguments; proved without one, for all arguments: NULL exactly if one has no encoding, an empty buffer exactly if they do not fit 1024 octets"
  },
  {
   "property": "C16",
   "status": "proved",
   "theorems": [
    "C16_security_mode",
    "C16_masks",
    "C16_defaults",
    "C16_key_status"
   ],
   "note": "for all masks below 256, all keys and all key states"
  },
  {
   "property": "C17",
   "status": "proved",
   "theorems": [
    "C17_paging",
    "C17_paging_null",
    "C17_paging_long"
   ],
   "note": "for all digit strings of 5..16 characters; other lengths give NULL, above 32 characters the buffer is overrun"
  },
  {
   "property": "C18",
   "status": "partial",
   "theorems": [
    "C18_direct_transfer_refuted",
    "C18_direct_transfer_partial"
   ],
   "note": "false of the code above 1004 octets, where the message is empty; exact up to there"
  },
  {
   "property": "C19",
   "status": "partial",
   "theorems": [
    "C19_reset",
    "C19_reset_ack",
    "C19_reset_resource",
    "C19_reset_resource_one",
    "C19_reset_resource_refuted",
    "C19_reset_resource_ids"
   ],
   "note": "reset and reset acknowledge in full; connection identifiers of 2^24 and more are cut to 24 bits in reset resource, and only one is accepted"
  },
  {
   "property": "C20",
   "status": "partial",
   "theorems": [
    "C20_voice_partial",
    "C20_data_partial",
    "C20_byte_order_refuted"
   ],
   "note": "false of the code on a little-endian host, where the address is reversed; the address sent is proved to be the number in host byte order, with the given port, TEI and RAB id, and every bearer parameter"
  },
  {
   "property": "C21",
   "status": "partial",
   "theorems": [
    "C21_release_partial",
    "C21_iu_rel_req",
    "C21_release_refuted"
   ],
   "note": "false of the code when an IE after the first cannot be encoded; proved: no double release ever, nothing left but the message on success"
  },
  {
   "property": "C22",
   "status": "partial",
   "theorems": [
    "C22_free_matches_decode",
    "C22_free_releases_message_partial",
    "C22_released_after_delivery_partial",
    "C22_repeated_ie_leaks_refuted"
   ],
   "note": "decoded and freed types agree for every path, direction and code, and the free releases all that is reachable; false of the code if an IE id occurs twice, whose first content leaks"
  },
  {
   "property": "C23",
   "status": "partial",
   "theorems": [
    "C23_cn_co_callback",
    "C23_ran_co_callback",
    "C23_delivered_header",
    "C23_cn_cl_callback_refuted",
    "C23_cn_cl_callback_partial"
   ],
   "note": "exact for both connection-oriented paths; false of the connectionless path, which delivers every PDU it has no case for, undecoded; exact exception proved"
  },
  {
   "property": "C24",
   "status": "partial",
   "theorems": [
    "C24_grammar_refuted",
    "C24_information_transfer_confirmation_rejected_refuted",
    "C24_grammar_partial"
   ],
   "note": "false of the code for three table entries (successful outcome 0 on the CN connection-oriented path, 31 and 34 on the connectionless path); all other entries proved to be the assigned grammar"
  },
  {
   "property": "C25",
   "status": "partial",
   "theorems": [
    "C25_failed_decode_leaks_refuted",
    "C25_failed_decode_partial"
   ],
   "note": "false of the CN connection-oriented path, which frees nothing after a failed decode; proved for the other two unless an IE id occurs twice"
  },
  {
   "property": "C26",
   "status": "proved",
   "theorems": [
    "C26_container_round_trip"
   ],
   "note": "for all 144 generated message containers"
  },
  {
   "property": "C27",
   "status": "proved",
   "theorems": [
    "C27_ids_unique",
    "C27_flags_distinct_bits",
    "C27_flag_macros_unique",
    "C27_flag_macros_identifiers"
   ],
   "note": ""
  },
  {
   "property": "C28",
   "status": "partial",
   "theorems": [
    "C28_missing_mandatory_refuted",
    "C28_acceptance_partial"
   ],
   "note": "false of the code: decoders accept a container without any IE; the exact acceptance condition is proved"
  },
  {
   "property": "C29",
   "status": "partial",
   "theorems": [
    "C29_unknown_ie_fatal_refuted"
   ],
   "note": "false of the code: an unknown IE is fatal whatever its criticality, for every message type"
  },
  {
   "property": "C30",
   "status": "proved",
   "theorems": [
    "C30_area_recorded_once"
   ],
   "note": "invariant over all histories, all environments and all application behaviours"
  },
  {
   "property": "C31",
   "status": "proved",
   "theorems": [
    "C31_table_refines_history"
   ],
   "note": "refinement to the last registration of the history; addresses are compared by their printed form, as the code does"
  },
  {
   "property": "C32",
   "status": "proved",
   "theorems": [
    "C32_rnc_unique",
    "C32_rnc_never_disappears",
    "C32_ue_refers_to_rnc"
   ],
   "note": ""
  },
  {
   "property": "C33",
   "status": "proved",
   "theorems": [
    "C33_new_area_events_exact"
   ],
   "note": "exact list of events of any operation after any history"
  },
  {
   "property": "C34",
   "status": "proved",
   "theorems": [
    "C34_page_ps2_exact"
   ],
   "note": "for a message that can be encoded; encoder failure is C56"
  },
  {
   "property": "C35",
   "status": "proved",
   "theorems": [
    "C35_page_cs2_exact"
   ],
   "note": "for a message that can be encoded; encoder failure is C56"
  },
  {
   "property": "C36",
   "status": "partial",
   "theorems": [
    "C36_return_counts_sent_refuted",
    "C36_return_counts_handed_over_partial"
   ],
   "note": "false of the code: a failed send is counted; proved that what is returned is the number handed to SCCP"
  },
  {
   "property": "C37",
   "status": "partial",
   "theorems": [
    "C37_legacy_cs_paging_silent",
    "C37_legacy_cs_paging_refuted"
   ],
   "note": "false of the code: no RAC is stored as 255 and looked up as 0; universal characterisation and a witness"
  },
  {
   "property": "C38",
   "status": "partial",
   "theorems": [
    "C38_three_digit_mnc_paged_refuted",
    "C38_two_digit_mnc_paged_partial"
   ],
   "note": "false of the code for 3-digit MNCs; proved end to end for 2-digit MNCs"
  },
  {
   "property": "C39",
   "status": "proved",
   "theorems": [
    "C39_uplink_routing"
   ],
   "note": ""
  },
  {
   "property": "C40",
   "status": "partial",
   "theorems": [
    "C40_delivered_exactly_partial",
    "C40_long_nas_refuted",
    "C40_direct_transfer_delivery_partial",
    "C40_initial_ue_delivery_partial"
   ],
   "note": "false of the code: a NAS PDU of more than 256 octets aborts the process, a refused Initial UE is not delivered; delivery exact otherwise"
  },
  {
   "property": "C41",
   "status": "proved",
   "theorems": [
    "C41_connect_answered_first_and_once"
   ],
   "note": ""
  },
  {
   "property": "C42",
   "status": "proved",
   "theorems": [
    "C42_empty_connect_then_data",
    "C42_remembered_address_used_once"
   ],
   "note": ""
  },
  {
   "property": "C43",
   "status": "proved",
   "theorems": [
    "C43_only_initial_ue_creates",
    "C43_initial_ue_creates"
   ],
   "note": ""
  },
  {
   "property": "C44",
   "status": "proved",
   "theorems": [
    "C44_disconnect_with_ue",
    "C44_disconnect_without_ue",
    "C44_disconnect_drops_remembered_address"
   ],
   "note": "under the assumption that SCCP does not open a connection with the id of one whose context exists"
  },
  {
   "property": "C45",
   "status": "proved",
   "theorems": [
    "C45_rnc_loss",
    "C45_nothing_lost"
   ],
   "note": "under the same assumption, and for an application that frees or releases in a LINK_INVALIDATED callback at most the subject; C47 shows this is needed"
  },
  {
   "property": "C46",
   "status": "proved",
   "theorems": [
    "C46_reachability_decision",
    "C46_no_loss_no_effect"
   ],
   "note": ""
  },
  {
   "property": "C47",
   "status": "partial",
   "theorems": [
    "C47_free_in_callback_refuted",
    "C47_free_none_older_partial"
   ],
   "note": "false of the code: freeing the next context of the list from the callback is a use after free; freeing the subject or newer contexts is proved safe"
  },
  {
   "property": "C48",
   "status": "partial",
   "theorems": [
    "C48_memory_safety_partial",
    "C48_connection_reuse_refuted"
   ],
   "note": "proved for an application that frees no context older than the subject in callbacks, and without reuse of connection ids; without the latter refuted by a witness"
  },
  {
   "property": "C49",
   "status": "partial",
   "theorems": [
    "C49_armed_timer_is_silenced",
    "C49_timer_never_reports",
    "C49_release_free_reports_refuted",
    "C49_release_free_never_reports"
   ],
   "note": "false of the code: neither timeout nor Release Complete reports or frees, for every history"
  },
  {
   "property": "C50",
   "status": "proved",
   "theorems": [
    "C50_no_event_after_release_free"
   ],
   "note": "for all histories and application behaviours"
  },
  {
   "property": "C51",
   "status": "partial",
   "theorems": [
    "C51_free_closes_own_connection_refuted",
    "C51_free_closes_own_connection_partial"
   ],
   "note": "false of the code when SCCP reuses a connection id; exact effect proved, and that no other context is hit without reuse"
  },
  {
   "property": "C52",
   "status": "proved",
   "theorems": [
    "C52_release_request_answered"
   ],
   "note": "for an encodable cause; encoder failure is C56"
  },
  {
   "property": "C53",
   "status": "proved",
   "theorems": [
    "C53_reset_acknowledged",
    "C53_other_connectionless_ignored"
   ],
   "note": "for an encodable answer; encoder failure is C56"
  },
  {
   "property": "C54",
   "status": "proved",
   "theorems": [
    "C54_primitive_freed_once"
   ],
   "note": "only a crash prevents it; crashes are characterised by C40, C48, C56"
  },
  {
   "property": "C55",
   "status": "partial",
   "theorems": [
    "C55_no_leak_refuted",
    "C55_leaks_characterised_partial"
   ],
   "note": "false of the code: a refused message leaks its NAS buffer; exact leak count of every operation proved"
  },
  {
   "property": "C56",
   "status": "partial",
   "theorems": [
    "C56_encoder_failure_refuted",
    "C56_send_functions_partial",
    "C56_no_other_crash_partial"
   ],
   "note": "false of the code: the encoder's NULL is dereferenced; exact condition proved for every send function"
  },
  {
   "property": "C57",
   "status": "proved",
   "theorems": [
    "C57_commands",
    "C57_address_encoding",
    "C57_other_lines",
    "C57_reload",
    "C57_without_pointer",
    "C57_written",
    "C57_invalid_encoding",
    "C57_other_default"
   ],
   "note": "for a program that gives ranap_iu_vty_init a pointer and starts with X.213, the documented default; C57_without_pointer and C57_other_default state what is lost otherwise"
  },
  {
   "property": "C58",
   "status": "partial",
   "theorems": [
    "C58_safe",
    "C58_ranap",
    "C58_unknown",
    "C58_cut_refuted",
    "C58_cut_partial",
    "C58_stale_refuted"
   ],
   "note": "RANAP in full, numbers without a text in hexadecimal in all three; false of RUA and HNBAP, which cut texts at 31 characters, and of HNBAP for unknown classes, where the last answer is repeated; safety holds everywhere"
  },
  {
   "property": "C59",
   "status": "partial",
   "theorems": [
    "C59_ranap",
    "C59_rua_tables",
    "C59_names_refuted",
    "C59_hnbap_partial"
   ],
   "note": "RANAP's five classes in full; false of RANAP's radio network extension, of two HNBAP causes without text, and of RUA and HNBAP protocol causes that are cut to the same text"
  },
  {
   "property": "C60",
   "status": "partial",
   "theorems": [
    "C60_udt",
    "C60_connect_partial",
    "C60_direct_transfer_partial",
    "C60_disconnect_partial",
    "C60_context",
    "C60_null"
   ],
   "note": "in full for context ids below 2^24; larger ones lose the upper octet (C61); the exact payload limits are part of the theorems"
  },
  {
   "property": "C61",
   "status": "partial",
   "theorems": [
    "C61_context_ids_refuted",
    "C61_context_ids_partial"
   ],
   "note": "false of ids that differ only above bit 23; proved for all others"
  },
  {
   "property": "C62",
   "status": "proved",
   "theorems": [
    "C62_aper_round_trip",
    "C62_aper_octets_round_trip",
    "C62_aper_only_valid",
    "C62_aper_unambiguous"
   ],
   "note": "over all 983 descriptors of the repository; the codec modelled is X.691 aligned PER, libasn1c itself is not in the repository"
  },
  {
   "property": "C63",
   "status": "partial",
   "theorems": [
    "C63_tables_complete_refuted",
    "C63_write_replace_never_decoded_refuted",
    "C63_tables_complete_partial"
   ],
   "note": "false of the code for 19 object sets whose ASN.1 text breaks lines; all other object sets proved complete, all tables proved sound"
  },
  {
   "property": "C64",
   "status": "proved",
   "theorems": [
    "C64_decoded_values_valid_and_reencodable"
   ],
   "note": "for all 983 descriptors; the decoder modelled is an X.691 decoder, libasn1c itself is not in the repository and does not check all upper bounds"
  },
  {
   "property": "C65",
   "status": "proved",
   "theorems": [
    "C65_iu_release_command",
    "C65_iu_release_request",
    "C65_iu_release_complete",
    "C65_security_mode_complete",
    "C65_common_id",
    "C65_common_id_null",
    "C65_rab_release_request",
    "C65_initial_ue"
   ],
   "note": "both ways: NULL exactly if an argument has no encoding; Initial UE is complete up to 966 octets of NAS, the exact limit of the buffer, and empty above; Common ID overruns its buffer for strings of more than 32 characters"
  },
  {
   "property": "C66",
   "status": "partial",
   "theorems": [
    "C66_leak_refuted",
    "C66_released_partial",
    "C66_total"
   ],
   "note": "false: the copy of the payload is never released; everything else is proved"
  },
  {
   "property": "C67",
   "status": "proved",
   "theorems": [
    "C67_names"
   ],
   "note": ""
  },
  {
   "property": "C68",
   "status": "proved",
   "theorems": [
    "C68_uplink_event_exact",
    "C68_other_messages_dropped",
    "C68_undecodable_dropped"
   ],
   "note": ""
  },
  {
   "property": "C69",
   "status": "proved",
   "theorems": [
    "C69_call_exact",
    "C69_call_total",
    "C69_call_without_context",
    "C69_call_after_free"
   ],
   "note": "for messages that can be encoded; C56 states what happens otherwise, C69_call_after_free what a call about a freed context does"
  },
  {
   "property": "C70",
   "status": "proved",
   "theorems": [
    "C70_legacy_paging_exact"
   ],
   "note": ""
  },
  {
   "property": "C71",
   "status": "proved",
   "theorems": [
    "C71_wire_format",
    "C71_octets_format",
    "C71_conformant_peer_understood",
    "C71_one_encoding"
   ],
   "note": "the relation X691.x691 is the specification; the C implementation of the codec (libasn1c) is outside the repository and assumed to follow it"
  },
  {
   "property": "C72",
   "status": "proved",
   "theorems": [
    "C72_body_octets",
    "C72_pdu_octets",
    "C72_pdu_read",
    "C72_body_read"
   ],
   "note": "the factory theorems (C14-C21, C61, C65) state the octets of each message through Factory_spec.holds"
  },
  {
   "property": "C73",
   "status": "partial",
   "theorems": [
    "C73_all_messages_refuted",
    "C73_cn_connection_partial",
    "C73_ran_connection_partial",
    "C73_cn_connectionless_partial"
   ],
   "note": "false: relocation detect and complete are refused by the CN, relocation cancel acknowledge by the RAN, and the connectionless path delivers everything else undecoded; the exact lists are proved"
  },
  {
   "property": "C74",
   "status": "proved",
   "theorems": [
    "C74_descriptors",
    "C74_message_tables",
    "C74_constraint_widths"
   ],
   "note": "the ASN.1 text and the C descriptors are transcribed by two independent scripts; object identifiers and open types are octet strings in both"
  },
  {
   "property": "C75",
   "status": "proved",
   "theorems": [
    "C75_extensions_ignored",
    "C75_bodies_conformant"
   ],
   "note": ""
  },
  {
   "property": "C76",
   "status": "partial",
   "theorems": [
    "C76_elements_lost_refuted",
    "C76_elements_merged_refuted",
    "C76_single_element_partial"
   ],
   "note": "false: of several elements only the first is decoded, without an error, whatever the number of elements, and several elements sent appear as one; proved for lists of one element"
  },
  {
   "property": "C77",
   "status": "proved",
   "theorems": [
    "C77_reported_exactly"
   ],
   "note": ""
  },
  {
   "property": "C78",
   "status": "proved",
   "theorems": [
    "C78_later_peer_understood",
    "C78_earlier_peer_understood",
    "C78_unknown_value_refused"
   ],
   "note": "as C71: of the codec the standard prescribes; the extension bitmap is limited to 64 components"
  },
  {
   "property": "C79",
   "status": "proved",
   "theorems": [
    "C79_arrival",
    "C79_iu_release_command",
    "C79_security_mode_command",
    "C79_common_id",
    "C79_direct_transfer_down",
    "C79_rab_assign_voice",
    "C79_rab_assign_data",
    "C79_initial_ue",
    "C79_direct_transfer_up",
    "C79_iu_release_request",
    "C79_iu_release_complete",
    "C79_security_mode_complete",
    "C79_rab_release_request",
    "C79_reset",
    "C79_reset_ack",
    "C79_reset_resource",
    "C79_paging",
    "C79_error_indication"
   ],
   "note": "for messages of at most 1024 octets; longer ones come out empty (C18)"
  },
  {
   "property": "C80",
   "status": "partial",
   "theorems": [
    "C80_long_nas_refuted",
    "C80_nas_partial",
    "C80_security_mode",
    "C80_common_id",
    "C80_release",
    "C80_rab_activation",
    "C80_paging",
    "C80_bad_imsi_partial"
   ],
   "note": "false for NAS PDUs of more than 1004 octets: empty data is sent; proved for all others, and what is sent instead for longer ones; an IMSI of fewer than 5 or more than 16 characters sends nothing and is fatal (C80_bad_imsi_partial)"
  },
  {
   "property": "C81",
   "status": "partial",
   "theorems": [
    "C81_initial_ue",
    "C81_direct_transfer_partial",
    "C81_release_request",
    "C81_rab_assignment",
    "C81_item_number",
    "C81_completions",
    "C81_reset",
    "C81_other_data",
    "C81_other_first",
    "C81_other_unitdata",
    "C81_factory_initial_ue",
    "C81_factory_direct_transfer"
   ],
   "note": "Direct Transfer: for NAS PDUs of up to 256 octets, longer ones abort (C82); that an Initial UE Message is delivered is stated for executions that do not crash (C82 says which do)"
  },
  {
   "property": "C82",
   "status": "partial",
   "theorems": [
    "C82_octets_crash_refuted",
    "C82_connect_partial",
    "C82_data_partial",
    "C82_disconnect_partial",
    "C82_any_application",
    "C82_history_partial",
    "C82_unitdata"
   ],
   "note": "false: four kinds of message crash the client (missing SAI, NAS PDU above 256 octets, release request without cause, empty RAB list); for an application that calls nothing from its callbacks they are proved to be the only ones, in every state; for applications that do, C82_history says that a history ends in a crash exactly if one of them arrives or a call is out of order, provided that connection numbers are not reused and no context older than the lost one is freed (otherwise C48)"
  },
  {
   "property": "C83",
   "status": "partial",
   "theorems": [
    "C83_identity",
    "C83_authentication",
    "C83_short_authentication",
    "C83_reject",
    "C83_information",
    "C83_other_mm",
    "C83_not_mm",
    "C83_accept_refuted",
    "C83_accept_partial",
    "C83_security_mode",
    "C83_security_mode_without_integrity",
    "C83_release",
    "C83_unexpected_refuted",
    "C83_unexpected_partial",
    "C83_paging",
    "C83_other_unconnected",
    "C83_only_on_channel",
    "C83_useless",
    "C83_closed",
    "C83_factory_nas",
    "C83_factory_security_mode",
    "C83_factory_release",
    "C83_factory_paging"
   ],
   "note": "false: the Location Updating Accept is acknowledged by the kind of network name, not of mobile identity, and depends on an uninitialised variable; a Release Complete is answered with a release complete; the answers are proved for everything else and exactly characterised for these; tlv_parse and the SRES are library functions"
  },
  {
   "property": "C84",
   "status": "partial",
   "theorems": [
    "C84_conformant",
    "C84_values",
    "C84_types",
    "C84_crash_refuted",
    "C84_crash_partial",
    "C84_voice",
    "C84_data",
    "C84_release"
   ],
   "note": "values and refusal in full; false of an element without octets, whose NULL structure is read; these and NULL arguments are proved to be the only fatal ones"
  },
  {
   "property": "C85",
   "status": "partial",
   "theorems": [
    "C85_registered",
    "C85_ue_registered",
    "C85_other",
    "C85_reject_refuted",
    "C85_any_outcome_partial",
    "C85_register_request",
    "C85_deregister",
    "C85_ue_register_request",
    "C85_reset",
    "C85_released_refuted",
    "C85_released_partial",
    "C85_released_hnbap_partial"
   ],
   "note": "false: a reject is reported as a registration with RNC id 0, and the value of every received PDU stays allocated; the rest is proved, including that nothing else stays allocated"
  },
  {
   "property": "C86",
   "status": "partial",
   "theorems": [
    "C86_no_crash_refuted",
    "C86_received_partial",
    "C86_event_partial",
    "C86_ue_register_refuted",
    "C86_security_mode_refuted",
    "C86_ue_accept_refuted"
   ],
   "note": "false: the fatal messages are exactly the relation Hnb_spec.fatal, proved in both directions for every reachable state; the only fatal command is a phone registration with fewer than 5 or more than 16 digits"
  },
  {
   "property": "C87",
   "status": "partial",
   "theorems": [
    "C87_channels",
    "C87_unique_refuted",
    "C87_unique_partial"
   ],
   "note": "false after 65536 channels; proved for all histories with at most that many"
  },
  {
   "property": "C88",
   "status": "proved",
   "theorems": [
    "C88_open",
    "C88_identity",
    "C88_authentication",
    "C88_security_mode",
    "C88_release",
    "C88_information",
    "C88_paging",
    "C88_reset"
   ],
   "note": "the gateway between RUA and SCCP is not part of the project and is assumed to move messages unchanged; crashes and misreadings of either side are C82 and C83, C86"
  },
  {
   "property": "C89",
   "status": "partial",
   "theorems": [
    "C89_named_partial",
    "C89_encodable",
    "C89_used",
    "C89_history_refuted",
    "C89_unchecked",
    "C89_enumeration_refuted",
    "C89_extension_refuted",
    "C89_rsrq",
    "C89_rsrq_refuted",
    "C89_volume",
    "C89_volume_refuted",
    "C89_components_partial",
    "C89_sign",
    "C89_complete",
    "C89_lists",
    "C89_lists_refuted"
   ],
   "note": "false: once a value of the type was encoded, decoded, printed or freed everything is accepted; before that it is proved for all but the types and components listed in Constr_spec (exact sets proved for them), enumerations, values in extensions and the number of elements of lists with a name; no other check is missing (C89_complete)"
  },
  {
   "property": "C90",
   "status": "partial",
   "theorems": [
    "C90_ranap",
    "C90_rua_refuted",
    "C90_rua_partial",
    "C90_hnb_register",
    "C90_hnb_ue_register",
    "C90_hnb_deregister_refuted",
    "C90_any_message_partial",
    "C90_lists_refuted",
    "C90_sabp_refuted"
   ],
   "note": "false: the RUA factory sends every message with criticality reject where the protocol says ignore, and so does the emulator with HNB De-Register; four messages of SABP cannot be built because their tables lack a mandatory IE, and no message with a list of two or more elements; proved for the RANAP factory, for all other messages with the exact condition, and for RUA up to the criticality"
  },
  {
   "property": "C91",
   "status": "partial",
   "theorems": [
    "C91_permitted_read_refuted",
    "C91_lists_refuted",
    "C91_permitted_read_partial",
    "C91_complete_tables",
    "C91_delivered_partial"
   ],
   "note": "false: the decoders refuse a message with any of the IEs the tables lost, for instance a Relocation Command with a container from the target, and so every conforming message of four SABP procedures, and report of a list only the first element; proved for all other messages, in particular for all of the tables that are complete; all is reported exactly if no list has more than one element"
  },
  {
   "property": "C92",
   "status": "partial",
   "theorems": [
    "C92_types_partial",
    "C92_messages_refuted",
    "C92_lists_refuted",
    "C92_private_refuted",
    "C92_redirection_refuted",
    "C92_nested_refuted"
   ],
   "note": "false for the messages, which lack their extensions in the codec (harmless, C75), for the lists (C76), for Private Message, Redirection Indication and the item of the Enhanced Relocation Complete Response; proved for all other types, with the exact difference for these"
  },
  {
   "property": "C93",
   "status": "partial",
   "theorems": [
    "C93_granted",
    "C93_crash_refuted",
    "C93_ies_lost_refuted",
    "C93_rab_lost_refuted",
    "C93_null_partial",
    "C93_crash_partial",
    "C93_no_crash_partial",
    "C93_rua_granted",
    "C93_rua_crash_refuted",
    "C93_rua_lost_refuted",
    "C93_rua_null_partial",
    "C93_rua_crash_partial"
   ],
   "note": "false: a denied part of the arguments is written through (crash), a list that cannot grow gives a message without its IEs, a denied pair an empty RAB item; the RUA factory crashes without memory for the body or the buffer and sends an empty RANAP message without memory for the copy; proved: granted requests give the message, any denied request for an IE or a value (RANAP: also for the body or the buffer) gives NULL, and which denials can crash"
  },
  {
   "property": "C94",
   "status": "partial",
   "theorems": [
    "C94_enough",
    "C94_goes_on_refuted",
    "C94_same_until_end_partial",
    "C94_every_denial_ends_partial",
    "C94_survived_partial",
    "C94_no_request",
    "C94_requests",
    "C94_suffices",
    "C94_how"
   ],
   "note": "false: every request that is denied ends the process by an access through NULL or a failed assertion, but for the buffer of a message that is refused anyway; proved: until the process ends everything is as with memory, which denials end it, which events need no memory, for the others how many requests they make and that granting these suffices, and how the process ends at which request"
  },
  {
   "property": "C95",
   "status": "proved",
   "theorems": [
    "C95_contexts",
    "C95_requests",
    "C95_callbacks",
    "C95_addresses"
   ],
   "note": "lost peers (ONoticeInd, OPcstateInd) touch many connections on purpose and are the subject of other properties; N-UNITDATA (paging, reset) has no connection; the table of RNCs is shared and not part of this property"
  },
  {
   "property": "C96",
   "status": "partial",
   "theorems": [
    "C96_closed_refuted",
    "C96_refused_connect_partial",
    "C96_refused_data_partial",
    "C96_stays_unused",
    "C96_dropped"
   ],
   "note": "false: a connection whose first message is not accepted is confirmed and then neither used nor closed; proved: exactly this happens for every first message that is not accepted, nothing is ever sent on it again and what comes on it is dropped until the peer opens it anew"
  },
  {
   "property": "C97",
   "status": "partial",
   "theorems": [
    "C97_lists",
    "C97_lists_last",
    "C97_repository",
    "C97_read_partial",
    "C97_complete_partial",
    "C97_everything_read_refuted",
    "C97_comment_refuted",
    "C97_files_partial",
    "C97_protocol"
   ],
   "note": "false: elements that are not on one line, sets with something between the closing brace and the end of the line, and what follows a comment in its line are dropped; the RANAP and SABP files have such elements and sets. Proved: for all files written as the specification says, exactly the rest is read, in order, and of names that are defined more than once, in one or in several files, the last definition; of lists exactly those defined, in any text; on the four files of the repository the script reads the tables that the other properties are about"
  },
  {
   "property": "C98",
   "status": "proved",
   "theorems": [
    "C98_members",
    "C98_messages",
    "C98_protocols",
    "C98_message_found",
    "C98_ie_found",
    "C98_functions",
    "C98_members_used",
    "C98_union_members_used",
    "C98_flags_used",
    "C98_calls",
    "C98_union_calls",
    "C98_switches",
    "C98_member_name",
    "C98_union_member_name",
    "C98_different",
    "C98_function_names",
    "C98_struct_names",
    "C98_declared",
    "C98_names_may_meet",
    "C98_declared_only"
   ],
   "note": "proved for the four protocols of the repository and the sources that use them; the rules for names are proved for all names, with what can go wrong for other files: two IEs whose names differ only in capitals can share a member, and a message with \"ies\" in its name has a decoder that is declared under another name than it is defined"
  },
  {
   "property": "C99",
   "status": "partial",
   "theorems": [
    "C99_reported",
    "C99_decoders",
    "C99_items",
    "C99_requests",
    "C99_releasable",
    "C99_released_partial",
    "C99_released_refuted"
   ],
   "note": "reporting is proved for all receive functions and decoders; that all is released is false of ranap_cn_rx_co, which releases nothing after an error, and proved of the other two unless an IE id occurs twice; what any decoder leaves, its free function releases"
  },
  {
   "property": "C100",
   "status": "partial",
   "theorems": [
    "C100_written",
    "C100_names",
    "C100_structure",
    "C100_macros_differ",
    "C100_macros",
    "C100_decoder",
    "C100_encoder",
    "C100_free",
    "C100_refused",
    "C100_own",
    "C100_decoded",
    "C100_rejected",
    "C100_encoded",
    "C100_released_partial",
    "C100_released_refuted"
   ],
   "note": "proved for the four protocols; for any other file proved for messages with at most 16 IEs that may be absent (the release of what was decoded); false beyond that, because the presence mask has 16 bits: the seventeenth such IE is decoded but marked absent, so that it is neither released nor encoded again. Sets that are used as lists (none in the four files) are not modelled"
  },
  {
   "property": "C101",
   "status": "proved",
   "theorems": [
    "C101_decoders",
    "C101_receive",
    "C101_client"
   ],
   "note": "with an IE that occurs twice the order matters, as the last one counts (C77); shown beside the theorems"
  },
  {
   "property": "C102",
   "status": "proved",
   "theorems": [
    "C102_closed",
    "C102_kept",
    "C102_bounded",
    "C102_open_conns",
    "C102_told_or_freed"
   ],
   "note": "an application that does not free what it is told is lost keeps the contexts, shown beside the theorems"
  },
  {
   "property": "C103",
   "status": "partial",
   "theorems": [
    "C103_ended_refuted",
    "C103_no_harm_partial"
   ],
   "note": "false: after a Reset all contexts are as before and the application is told nothing, for every history; proved: no message without a connection changes anything, and at most it is answered with a Reset Acknowledge to its sender (C53)"
  },
  {
   "property": "C104",
   "status": "proved",
   "theorems": [
    "C104_introduced",
    "C104_ended",
    "C104_gone"
   ],
   "note": "contexts are told apart by their creation, not by their address, which the allocator may give out again"
  },
  {
   "property": "C105",
   "status": "proved",
   "theorems": [
    "C105_enumerations",
    "C105_distinct",
    "C105_constants",
    "C105_client"
   ],
   "note": "compares the headers with the ASN.1 modules that are compiled; the tables are read by different scripts"
  },
  {
   "property": "C106",
   "status": "proved",
   "theorems": [
    "C106_descriptors",
    "C106_types",
    "C106_structures",
    "C106_optional",
    "C106_once",
    "C106_uses"
   ],
   "note": "which functions libasn1c has for which C type is taken from its interface; the functions' own code is not modelled"
  },
  {
   "property": "C107",
   "status": "partial",
   "theorems": [
    "C107_decoded",
    "C107_shown",
    "C107_shown_first",
    "C107_silent",
    "C107_encoded_refuted",
    "C107_encoded_partial",
    "C107_failed_output",
    "C107_not_encoded",
    "C107_pairs",
    "C107_calls_silent",
    "C107_calls_partial",
    "C107_rab_refuted",
    "C107_rua_partial",
    "C107_rua_silent",
    "C107_client_partial",
    "C107_client_crash_refuted"
   ],
   "note": "false for messages that are sent: an IE whose output fails is not encoded and its octets stay allocated, a RAB Assignment Request may be made without its RAB, and the client dies when it gets no message to send"
  },
  {
   "property": "C108",
   "status": "partial",
   "theorems": [
    "C108_bound",
    "C108_requests",
    "C108_failure_reported_refuted",
    "C108_unbound_partial",
    "C108_before_connections"
   ],
   "note": "false of the code: ranap_iu_init returns 0 although SCCP did not bind it; the rest is proved for all histories"
  },
  {
   "property": "C109",
   "status": "partial",
   "theorems": [
    "C109_announced",
    "C109_bounded",
    "C109_unchanged",
    "C109_lost_not_paged_refuted",
    "C109_lost_still_paged"
   ],
   "note": "false of the code: an RNC that was reported lost is paged as before, in every history; the rest is proved for all histories"
  }
 ]
}