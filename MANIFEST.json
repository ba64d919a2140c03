{
 "claims": [
  {
   "property": "C01",
   "status": "proved",
   "theorems": [
    "C01_every_constructor",
    "C01_new_accepts_iff_header_fits"
   ],
   "note": "(PropsCore.v, PropsDerive.v)"
  },
  {
   "property": "C02",
   "status": "proved",
   "theorems": [
    "C02_getter_reads_exactly_its_bits",
    "C02_constructed_getter_reads_exactly_its_bits"
   ],
   "note": "(PropsDerive.v)"
  },
  {
   "property": "C03",
   "status": "proved",
   "theorems": [
    "C03_setter_writes_exactly_its_bits",
    "C03_setter_out_of_range_panics",
    "C03_constructed_setter_writes_exactly_its_bits"
   ],
   "note": "(PropsDerive.v)"
  },
  {
   "property": "C04",
   "status": "proved",
   "theorems": [
    "C04_set_then_get",
    "C04_getter_range"
   ],
   "note": "(PropsDerive.v)"
  },
  {
   "property": "C05",
   "status": "proved",
   "theorems": [
    "C05_history_of_header_writes"
   ],
   "note": "(PropsDerive.v)"
  },
  {
   "property": "C06",
   "status": "proved",
   "theorems": [
    "C06_little_endian_get",
    "C06_little_endian_set"
   ],
   "note": "(PropsDerive.v)"
  },
  {
   "property": "C07",
   "status": "proved",
   "theorems": [
    "C07_little_endian_lossless",
    "C07_little_endian_lossy"
   ],
   "note": "Finding: exact set of lossy little-endian placements. (PropsDerive.v)"
  },
  {
   "property": "C08",
   "status": "proved",
   "theorems": [
    "C08_unsupported_placement_aborts_checked_macro",
    "C08_unsupported_placement_is_wrong_if_generated",
    "C08_bad_sizes_rejected",
    "C08_supported_placement_is_generated"
   ],
   "note": "Finding: unsupported placements are miscompiled when the macro crate is built without overflow checks. (PropsDerive.v)"
  },
  {
   "property": "C09",
   "status": "proved",
   "theorems": [
    "C09_getter_text_is_rust",
    "C09_setter_text_is_rust",
    "C09_getter_text_reads_the_field",
    "C09_setter_text_writes_the_field"
   ],
   "note": "Finding: setters of 16- and 32-bit little-endian fields at bit offsets 5..7 contain a literal that does not fit. (PropsText.v)"
  },
  {
   "property": "C10",
   "status": "proved",
   "theorems": [
    "C10_header_getter_total",
    "C10_header_setter_total",
    "C10_crate_descriptions_well_formed"
   ],
   "note": "(PropsDerive.v)"
  },
  {
   "property": "C11",
   "status": "proved",
   "theorems": [
    "C11_setters_keep_length",
    "C11_populate_keeps_length",
    "C11_crate"
   ],
   "note": "(PropsDerive.v)"
  },
  {
   "property": "C12",
   "status": "proved",
   "theorems": [
    "C12_payload_total_and_clipped",
    "C12_payload_generic"
   ],
   "note": "GRE needs routing_present = 0; NdpOption needs length < 32 in a checked build. (PropsDerive.v)"
  },
  {
   "property": "C13",
   "status": "proved",
   "theorems": [
    "C13_payload_mut_window"
   ],
   "note": "(PropsDerive.v)"
  },
  {
   "property": "C14",
   "status": "proved",
   "theorems": [
    "C14_variable_getter",
    "C14_own_length_panics",
    "C14_offset_panics"
   ],
   "note": "(PropsDerive.v)"
  },
  {
   "property": "C15",
   "status": "proved",
   "theorems": [
    "C15_set_bytes_all_or_nothing"
   ],
   "note": "(PropsDerive.v)"
  },
  {
   "property": "C16",
   "status": "proved",
   "theorems": [
    "C16_packet_size_is_header_plus_lengths",
    "C16_packet_size_depends_on_header_only"
   ],
   "note": "(PropsDerive.v)"
  },
  {
   "property": "C17",
   "status": "proved",
   "theorems": [
    "C17_struct_size_without_sub_packets",
    "C17_tcp_struct_size_counts_options",
    "C17_struct_size_is_encoded_size_refuted"
   ],
   "note": "Finding: wrong for structs with vectors of sub-packets. (PropsDerive.v)"
  },
  {
   "property": "C18",
   "status": "proved",
   "theorems": [
    "C18_populate_then_from_packet",
    "C18_populate_then_from_packet_larger_buffer",
    "C18_crate_struct_to_wire_and_back"
   ],
   "note": "(PropsDerive.v, PropsProto.v)"
  },
  {
   "property": "C19",
   "status": "proved",
   "theorems": [
    "C19_from_packet_then_populate",
    "C19_crate_wire_to_struct_and_back"
   ],
   "note": "(PropsDerive.v, PropsProto.v)"
  },
  {
   "property": "C20",
   "status": "proved",
   "theorems": [
    "C20_iterator_terminates_and_tiles",
    "C20_sub_byte_header_repeats_forever"
   ],
   "note": "Finding: endless iteration when the fixed header is shorter than a byte. (PropsDerive.v)"
  },
  {
   "property": "C21",
   "status": "proved",
   "theorems": [
    "C21_wide_vector_getter_panics",
    "C21_wide_vector_setter_writes_big_endian"
   ],
   "note": "Finding: such getters always panic on non-empty fields. (PropsDerive.v)"
  },
  {
   "property": "C22",
   "status": "proved",
   "theorems": [
    "C22_clone_from_copies",
    "C22_clone_from_panics",
    "C22_clone_from_getters"
   ],
   "note": "(PropsCore.v)"
  },
  {
   "property": "C23",
   "status": "proved",
   "theorems": [
    "C23_equality",
    "C23_equality_mutable",
    "C23_view_equality",
    "C23_mutable_views"
   ],
   "note": "(PropsCore.v)"
  },
  {
   "property": "C24",
   "status": "proved",
   "theorems": [
    "C24_constructed_bytes",
    "C24_views_bytes",
    "C24_views_getters"
   ],
   "note": "(PropsCore.v)"
  },
  {
   "property": "C25",
   "status": "proved",
   "theorems": [
    "C25_checksum_is_rfc1071"
   ],
   "note": "(PropsChecksum.v)"
  },
  {
   "property": "C26",
   "status": "proved",
   "theorems": [
    "C26_checksum_field_ignored",
    "C26_checksum_field_ignored_ipv4",
    "C26_checksum_field_ignored_ipv6"
   ],
   "note": "(PropsChecksum.v)"
  },
  {
   "property": "C27",
   "status": "proved",
   "theorems": [
    "C27_stored_checksum_verifies",
    "C27_stored_checksum_verifies_ipv4",
    "C27_stored_checksum_verifies_ipv6"
   ],
   "note": "(PropsChecksum.v)"
  },
  {
   "property": "C28",
   "status": "proved",
   "theorems": [
    "C28_ipv4_pseudo_header",
    "C28_ipv6_pseudo_header"
   ],
   "note": "(PropsChecksum.v)"
  },
  {
   "property": "C29",
   "status": "proved",
   "theorems": [
    "C29_word_corruption_detected",
    "C29_byte_corruption_detected",
    "C29_byte_corruption_fails_verification"
   ],
   "note": "(PropsChecksum.v)"
  },
  {
   "property": "C30",
   "status": "proved",
   "theorems": [
    "C30_odd_extra_data_drops_last_byte_ipv4",
    "C30_odd_extra_data_drops_last_byte_ipv6",
    "C30_extra_data_checksum_refuted"
   ],
   "note": "Finding: the last byte of odd extra data is dropped. (PropsChecksum.v)"
  },
  {
   "property": "C31",
   "status": "proved",
   "theorems": [
    "C31_checked_exact",
    "C31_checked_overflow",
    "C31_wrapping_total",
    "C31_wrapping_wrong",
    "C31_all_ones_rfc1071"
   ],
   "note": "Finding: the 32-bit accumulator can overflow. (PropsChecksum.v)"
  },
  {
   "property": "C32",
   "status": "proved",
   "theorems": [
    "C32_udp_ipv4",
    "C32_udp_ipv6",
    "C32_tcp_ipv4",
    "C32_tcp_ipv6",
    "C32_icmpv6",
    "C32_icmp",
    "C32_ipv4_header"
   ],
   "note": "(PropsChecksum.v)"
  },
  {
   "property": "C33",
   "status": "proved",
   "theorems": [
    "C33_ipv4_header_checksum"
   ],
   "note": "(PropsChecksum.v)"
  },
  {
   "property": "C34",
   "status": "proved",
   "theorems": [
    "C34_udp_zero_checksum_iff",
    "C34_udp_zero_checksum_reachable"
   ],
   "note": "Finding: zero is returned where RFC 768 requires 0xFFFF. (PropsChecksum.v)"
  },
  {
   "property": "C35",
   "status": "proved",
   "theorems": [
    "C35_print_parse",
    "C35_printed_shape",
    "C35_print_injective"
   ],
   "note": "(PropsMac.v)"
  },
  {
   "property": "C36",
   "status": "proved",
   "theorems": [
    "C36_accepts_exactly"
   ],
   "note": "(PropsMac.v)"
  },
  {
   "property": "C37",
   "status": "proved",
   "theorems": [
    "C37_error_classes",
    "C37_pieces_exist"
   ],
   "note": "(PropsMac.v)"
  },
  {
   "property": "C38",
   "status": "proved",
   "theorems": [
    "C38_loose_spellings",
    "C38_infinitely_many"
   ],
   "note": "(PropsMac.v)"
  },
  {
   "property": "C39",
   "status": "proved",
   "theorems": [
    "C39_bits",
    "C39_special"
   ],
   "note": "(PropsMac.v)"
  },
  {
   "property": "C40",
   "status": "proved",
   "theorems": [
    "C40_arrays",
    "C40_serde",
    "C40_serde_bytes"
   ],
   "note": "(PropsMac.v)"
  },
  {
   "property": "C41",
   "status": "proved",
   "theorems": [
    "C41_every_fixed_field_is_in_the_diagram",
    "C41_getters_read_the_diagram",
    "C41_setters_write_the_diagram"
   ],
   "note": "(PropsProto.v)"
  },
  {
   "property": "C42",
   "status": "proved",
   "theorems": [
    "C42_ipv4_options_and_payload"
   ],
   "note": "(PropsProto.v)"
  },
  {
   "property": "C43",
   "status": "proved",
   "theorems": [
    "C43_ipv4_payload_past_total_length",
    "C43_payload_within_total_length_refuted"
   ],
   "note": "(PropsProto.v)"
  },
  {
   "property": "C44",
   "status": "proved",
   "theorems": [
    "C44_tcp_header_options_payload_tile"
   ],
   "note": "(PropsProto.v)"
  },
  {
   "property": "C45",
   "status": "proved",
   "theorems": [
    "C45_tcp_get_options",
    "C45_ipv4_get_options"
   ],
   "note": "(PropsProto.v)"
  },
  {
   "property": "C46",
   "status": "proved",
   "theorems": [
    "C46_tcp_from_packet",
    "C46_ipv4_from_packet"
   ],
   "note": "(PropsProto.v)"
  },
  {
   "property": "C47",
   "status": "proved",
   "theorems": [
    "C47_constructors_build_good_options",
    "C47_options_survive_the_wire"
   ],
   "note": "(PropsProto.v)"
  },
  {
   "property": "C48",
   "status": "proved",
   "theorems": [
    "C48_selective_ack_wrong_length"
   ],
   "note": "(PropsProto.v)"
  },
  {
   "property": "C49",
   "status": "proved",
   "theorems": [
    "C49_ndp_option_sizes"
   ],
   "note": "(PropsProto.v)"
  },
  {
   "property": "C50",
   "status": "proved",
   "theorems": [
    "C50_extension",
    "C50_routing",
    "C50_iterable_walks_the_chain",
    "C50_iterable_never_panics"
   ],
   "note": "(PropsProto.v)"
  },
  {
   "property": "C51",
   "status": "proved",
   "theorems": [
    "C51_fragment_setters_are_independent"
   ],
   "note": "(PropsProto.v)"
  },
  {
   "property": "C52",
   "status": "proved",
   "theorems": [
    "C52_offset_includes_a_reserved_bit",
    "C52_offset_multiple_of_eight_refuted"
   ],
   "note": "(PropsProto.v)"
  },
  {
   "property": "C53",
   "status": "proved",
   "theorems": [
    "C53_gre_optional_words",
    "C53_gre_routing_panics"
   ],
   "note": "(PropsProto.v)"
  },
  {
   "property": "C54",
   "status": "proved",
   "theorems": [
    "C54_encodings_are_decoded",
    "C54_decoded_bytes_are_encodings"
   ],
   "note": "(PropsQuic.v)"
  },
  {
   "property": "C55",
   "status": "proved",
   "theorems": [
    "C55_n_varints"
   ],
   "note": "(PropsQuic.v)"
  },
  {
   "property": "C56",
   "status": "proved",
   "theorems": [
    "C56_packet_number"
   ],
   "note": "(PropsQuic.v)"
  },
  {
   "property": "C57",
   "status": "proved",
   "theorems": [
    "C57_packets_tile_the_datagram"
   ],
   "note": "(PropsQuic.v)"
  },
  {
   "property": "C58",
   "status": "proved",
   "theorems": [
    "C58_coalesced_packets_are_recovered"
   ],
   "note": "(PropsQuic.v)"
  },
  {
   "property": "C59",
   "status": "proved",
   "theorems": [
    "C59_packets_are_classified"
   ],
   "note": "(PropsQuic.v)"
  },
  {
   "property": "C60",
   "status": "proved",
   "theorems": [
    "C60_outcome_of_the_first_packet",
    "C60_checked_panic_condition",
    "C60_wellformed_never_panics",
    "C60_malformed_is_none_refuted"
   ],
   "note": "(PropsQuic.v)"
  },
  {
   "property": "C61",
   "status": "proved",
   "theorems": [
    "C61_zero_version_with_both_bits_clear"
   ],
   "note": "(PropsQuic.v)"
  },
  {
   "property": "C62",
   "status": "proved",
   "theorems": [
    "C62_short_packets"
   ],
   "note": "(PropsQuic.v)"
  },
  {
   "property": "C63",
   "status": "proved",
   "theorems": [
    "C63_frames_tile_the_payload"
   ],
   "note": "(PropsQuic.v)"
  },
  {
   "property": "C64",
   "status": "proved",
   "theorems": [
    "C64_frames_are_recovered"
   ],
   "note": "(PropsQuic.v)"
  },
  {
   "property": "C65",
   "status": "proved",
   "theorems": [
    "C65_ack_ranges_are_left_over",
    "C65_ack_ranges_recovered_refuted"
   ],
   "note": "(PropsQuic.v)"
  },
  {
   "property": "C66",
   "status": "proved",
   "theorems": [
    "C66_outcomes_of_frame_parsing"
   ],
   "note": "(PropsQuic.v)"
  },
  {
   "property": "C67",
   "status": "proved",
   "theorems": [
    "C67_ethertype_constants",
    "C67_ip_constants",
    "C67_ethertypes_unambiguous",
    "C67_ip_unambiguous",
    "C67_ethertypes_assigned",
    "C67_ip_iana",
    "C67_frames_rfc",
    "C67_frame_names_are_variants",
    "C67_parsed_frames_print_their_name",
    "C67_long_packet_types",
    "C67_header_bits",
    "C67_version_text"
   ],
   "note": "(PropsNames.v)"
  },
  {
   "property": "C68",
   "status": "proved",
   "theorems": [
    "C68_integer_names",
    "C68_types",
    "C68_errors"
   ],
   "note": "(PropsMacro.v)"
  },
  {
   "property": "C69",
   "status": "proved",
   "theorems": [
    "C69_accepts"
   ],
   "note": "(PropsMacro.v)"
  },
  {
   "property": "C70",
   "status": "proved",
   "theorems": [
    "C70_aliases",
    "C70_wide_enough",
    "C70_no_duplicates"
   ],
   "note": "(PropsCore.v)"
  },
  {
   "property": "C71",
   "status": "proved",
   "theorems": [
    "C71_octets_big_endian",
    "C71_octets_value"
   ],
   "note": "(PropsChecksum.v)"
  },
  {
   "property": "C72",
   "status": "proved",
   "theorems": [
    "C72_setter_checks_the_old_byte",
    "C72_populate_depends_on_old_bytes",
    "C72_zeroed_buffers_reject_long_integers"
   ],
   "note": "(PropsQuic.v)"
  },
  {
   "property": "C73",
   "status": "proved",
   "theorems": [
    "C73_mac",
    "C73_ipv4",
    "C73_ipv4_back",
    "C73_ipv6",
    "C73_ipv6_back"
   ],
   "note": "(PropsCore.v)"
  },
  {
   "property": "C74",
   "status": "proved",
   "theorems": [
    "C74_derives"
   ],
   "note": "(PropsMacro.v)"
  },
  {
   "property": "C75",
   "status": "proved",
   "theorems": [
    "C75_word_order_irrelevant",
    "C75_swapped_words_undetected",
    "C75_addresses_interchangeable_ipv4",
    "C75_addresses_interchangeable_ipv6"
   ],
   "note": "(PropsChecksum2.v)"
  },
  {
   "property": "C76",
   "status": "proved",
   "theorems": [
    "C76_byte_order_independent"
   ],
   "note": "(PropsChecksum2.v)"
  },
  {
   "property": "C77",
   "status": "proved",
   "theorems": [
    "C77_checksum_of_parts"
   ],
   "note": "(PropsChecksum2.v)"
  },
  {
   "property": "C78",
   "status": "proved",
   "theorems": [
    "C78_incremental_update"
   ],
   "note": "(PropsChecksum2.v)"
  },
  {
   "property": "C79",
   "status": "proved",
   "theorems": [
    "C79_comparison",
    "C79_udp_ipv4",
    "C79_udp_ipv6",
    "C79_tcp_ipv4",
    "C79_tcp_ipv6",
    "C79_icmpv6",
    "C79_icmp",
    "C79_ipv4_header",
    "C79_comparison_accepts_refuted"
   ],
   "note": "Finding: comparing for equality rejects valid UDP datagrams that carry 0xFFFF for a computed 0. (PropsChecksum2.v)"
  },
  {
   "property": "C80",
   "status": "proved",
   "theorems": [
    "C80_order_is_numeric",
    "C80_order_is_textual",
    "C80_order_agrees_with_equality",
    "C80_ends"
   ],
   "note": "(PropsMac.v)"
  },
  {
   "property": "C81",
   "status": "proved",
   "theorems": [
    "C81_stack_is_recovered",
    "C81_stack_is_built",
    "C81_payload_is_the_payload_field",
    "C81_inner_views_are_parts"
   ],
   "note": "(PropsStack.v)"
  },
  {
   "property": "C82",
   "status": "proved",
   "theorems": [
    "C82_edit_keeps_the_layers_around",
    "C82_edit_touches_the_inner_bytes_only",
    "C82_edit_keeps_the_length"
   ],
   "note": "(PropsStack.v)"
  },
  {
   "property": "C83",
   "status": "proved",
   "theorems": [
    "C83_payload_areas",
    "C83_structs_can_be_built",
    "C83_areas_are_complete",
    "C83_udp_payload_within_length_refuted"
   ],
   "note": "Finding: the UDP payload is not bounded by the length field. (PropsArea.v)"
  },
  {
   "property": "C84",
   "status": "proved",
   "theorems": [
    "C84_options_area",
    "C84_debug_builds",
    "C84_release_builds",
    "C84_wellformed_options_are_read_back"
   ],
   "note": "Finding: options of 32 units or more panic or are mis-measured. (PropsArea.v)"
  },
  {
   "property": "C85",
   "status": "proved",
   "theorems": [
    "C85_list_setter_effect",
    "C85_failed_set_leaves_the_payload_refuted"
   ],
   "note": "Finding: an overlong list overwrites the bytes after its area before the panic. (PropsPopulate.v)"
  },
  {
   "property": "C86",
   "status": "proved",
   "theorems": [
    "C86_populate_never_truncates"
   ],
   "note": "(PropsPopulate.v)"
  },
  {
   "property": "C87",
   "status": "proved",
   "theorems": [
    "C87_datagram_to_frames"
   ],
   "note": "(PropsQuicEnd.v)"
  },
  {
   "property": "C88",
   "status": "proved",
   "theorems": [
    "C88_any_packet",
    "C88_crate_packets"
   ],
   "note": "(PropsFmt.v)"
  },
  {
   "property": "C89",
   "status": "proved",
   "theorems": [
    "C89_text_determines_fields",
    "C89_quic_text_determines_fields",
    "C89_frame_text_determines_fields"
   ],
   "note": "(PropsFmt.v)"
  },
  {
   "property": "C90",
   "status": "proved",
   "theorems": [
    "C90_sent_packets_are_printed",
    "C90_text_determines_values"
   ],
   "note": "(PropsFmt.v)"
  },
  {
   "property": "C91",
   "status": "proved",
   "theorems": [
    "C91_functions_mean_their_source",
    "C91_checksum_text",
    "C91_varint_text"
   ],
   "note": "The interpreter and the copied text are independent of the model; generated methods used by the texts are taken from DeriveGen.v. (PropsSource.v)"
  },
  {
   "property": "C92",
   "status": "proved",
   "theorems": [
    "C92_descriptions_mean_their_structs",
    "C92_every_struct_is_described",
    "C92_lengths_run_from_text"
   ],
   "note": "The declarations are copied text; vectors of packets refer to the description of the element struct. (PropsItem.v)"
  },
  {
   "property": "C93",
   "status": "proved",
   "theorems": [
    "C93_getters",
    "C93_raw_getters",
    "C93_iterators",
    "C93_new",
    "C93_sizes",
    "C93_packet_and_payload"
   ],
   "note": "The templates are copied text. Getters of the same packet called inside length attributes and T::new are taken from the model (SpecEmit.v). For a Vec of packets, next and from_packet of the elements are taken from the model (C95 for them). (PropsEmit.v)"
  },
  {
   "property": "C94",
   "status": "proved",
   "theorems": [
    "C94_setters",
    "C94_raw_mut",
    "C94_populate"
   ],
   "note": "The templates are copied text. Setters called by populate and getters called in length attributes are taken from the model. For a Vec of packets, new, populate and packet_size of the elements are taken from the model (C93, C94 for them). (PropsEmitSet.v)"
  },
  {
   "property": "C95",
   "status": "proved",
   "theorems": [
    "C95_next",
    "C95_loop",
    "C95_from_packet",
    "C95_immutable"
   ],
   "note": "The templates are copied text. new and packet_size called by next and the getters called by from_packet are taken from the model (C93 for them). The loop theorem covers the structs of crate_schemas; QUIC structs are not iterated by the crate. (PropsEmitIter.v)"
  },
  {
   "property": "C96",
   "status": "proved",
   "theorems": [
    "C96_operations_source",
    "C96_helpers_source",
    "C96_mutator_source",
    "C96_display_source",
    "C96_getter_text_source",
    "C96_setter_text_source",
    "C96_getter_from_source",
    "C96_setter_from_source"
   ],
   "note": "The texts are copied by tools/source_text2.py. The getter body theorem is stated for plans of at most nine operations, which is what operations returns. (PropsSource2.v)"
  },
  {
   "property": "C97",
   "status": "proved",
   "theorems": [
    "C97_display_source",
    "C97_newtype_source",
    "C97_mac_source",
    "C97_mac_array_source",
    "C97_mac_text_source",
    "C97_mac_round_trip_source",
    "C97_mac_accepts_source",
    "C97_options_source"
   ],
   "note": "The texts are copied by tools/source_text2.py. serde impls are not run from text (C40 is about the model). (PropsSource3.v)"
  },
  {
   "property": "C98",
   "status": "proved",
   "theorems": [
    "C98_packet_source",
    "C98_packets_source",
    "C98_packets_tile_source",
    "C98_packets_recovered_source",
    "C98_frame_source",
    "C98_frames_source",
    "C98_frames_tile_source",
    "C98_frames_recovered_source",
    "C98_frame_outcomes_source"
   ],
   "note": "The texts are copied by tools/source_text2.py. Methods of the packets generated by the macro are taken from the model (C92 to C95 for them); packet_number is run from its own text in C91. (PropsSource4.v)"
  },
  {
   "property": "C99",
   "status": "proved",
   "theorems": [
    "C99_expansion_source",
    "C99_getters_source"
   ],
   "note": "The texts are copied by tools/gen_code.py. parse::packet (C92), operations, to_mutator, gen_get_ops and gen_set_ops (C96) are taken from the model. Each of the 53 runs is compared by computation, for every plan of operations that does not depend on the configuration. (PropsMacro2.v)"
  },
  {
   "property": "C100",
   "status": "proved",
   "theorems": [
    "C100_any_struct",
    "C100_any_struct_has_code",
    "C100_minimum_size_emitted",
    "C100_crate_structs_covered"
   ],
   "note": "The trusted parts are those of C99. The plan of operations is that of the model for every place of a field (run from its text in C96). Structs the macro rejects: C101. (PropsMacro3.v)"
  },
  {
   "property": "C101",
   "status": "proved",
   "theorems": [
    "C101_field_refused",
    "C101_parse_error_passed_on"
   ],
   "note": "The trusted parts are those of C99. Where operations() has no plan for a primitive the macro panics (unwrap); that case is not covered. (PropsMacro3.v)"
  },
  {
   "property": "C102",
   "status": "proved",
   "theorems": [
    "C102_methods_of_any_struct",
    "C102_read_only_type",
    "C102_names_unique",
    "C102_crate_names_unique",
    "C102_names_unique_refuted"
   ],
   "note": "The trusted parts are those of C99. Names are compared as tokens; trait methods (packet, payload, packet_mut, payload_mut) are in C99 and C100. (PropsMacro4.v)"
  },
  {
   "property": "C103",
   "status": "proved",
   "theorems": [
    "C103_populate",
    "C103_sizes",
    "C103_from_packet",
    "C103_size_at_least_minimum_refuted"
   ],
   "note": "The trusted parts are those of C99. The bodies are compared as tokens; C16, C17 and C18 give their meaning. (PropsMacro5.v)"
  },
  {
   "property": "C104",
   "status": "proved",
   "theorems": [
    "C104_payload",
    "C104_packet_size",
    "C104_payload_after_packet_size",
    "C104_payload_behind_fields_refuted"
   ],
   "note": "The trusted parts are those of C99. The bodies are compared as tokens; what they do on a buffer is in C13, C16 and C93. (PropsMacro6.v)"
  },
  {
   "property": "C105",
   "status": "proved",
   "theorems": [
    "C105_debug",
    "C105_iterator"
   ],
   "note": "The trusted parts are those of C99 and, for format!, those of C88. What the iterator does on a buffer is in C20 and C95. (PropsMacro7.v)"
  }
 ]
}