{
 "claims": [
  {
   "property": "C01",
   "status": "proved",
   "theorems": [
    "C01_consecutive_slices",
    "C01_any_offset",
    "C01_no_bit_lost"
   ],
   "note": ""
  },
  {
   "property": "C02",
   "status": "proved",
   "theorems": [
    "C02_same_result_under_both_runtimes"
   ],
   "note": ""
  },
  {
   "property": "C03",
   "status": "proved",
   "theorems": [
    "C03_terminates",
    "C03_budget_is_irrelevant"
   ],
   "note": ""
  },
  {
   "property": "C04",
   "status": "proved",
   "theorems": [
    "C04_only_parse_errors"
   ],
   "note": ""
  },
  {
   "property": "C05",
   "status": "proved",
   "theorems": [
    "C05_no_enum_declares_a_number_or_a_name_twice",
    "C05_field_value",
    "C05_wire_number_recoverable",
    "C05_injective",
    "C05_names_distinguish",
    "C05_enumerated_fields"
   ],
   "note": ""
  },
  {
   "property": "C06",
   "status": "proved",
   "theorems": [
    "C06_trailing_bytes_ignored",
    "C06_includes",
    "C06_lazy_attributes",
    "C06_mbxml",
    "C06_classification",
    "C06_others_depend_on_the_end"
   ],
   "note": ""
  },
  {
   "property": "C07",
   "status": "proved",
   "theorems": [
    "C07_no_information_lost",
    "C07_every_bit_once"
   ],
   "note": ""
  },
  {
   "property": "C08",
   "status": "proved",
   "theorems": [
    "C08_csbk_decoding",
    "C08_csbk_unknown_opcode",
    "C08_csbk_length"
   ],
   "note": ""
  },
  {
   "property": "C09",
   "status": "proved",
   "theorems": [
    "C09_data_header_opens",
    "C09_data_header_body",
    "C09_data_header_total",
    "C09_appended_blocks"
   ],
   "note": ""
  },
  {
   "property": "C10",
   "status": "proved",
   "theorems": [
    "C10_data_header_history",
    "C10_data_header_short",
    "C10_failing_access_moves_stream_refuted"
   ],
   "note": "the expectation that a failing access leaves the position alone is refuted by C10_failing_access_moves_stream_refuted"
  },
  {
   "property": "C11",
   "status": "proved",
   "theorems": [
    "C11_full_link_control_decoding"
   ],
   "note": ""
  },
  {
   "property": "C12",
   "status": "proved",
   "theorems": [
    "C12_checksum_by_length",
    "C12_checksum_unknown_flco"
   ],
   "note": "known FLCOs: C12_checksum_by_length; unknown ones: C12_checksum_unknown_flco"
  },
  {
   "property": "C13",
   "status": "proved",
   "theorems": [
    "C13_blocks",
    "C13_partition"
   ],
   "note": ""
  },
  {
   "property": "C14",
   "status": "proved",
   "theorems": [
    "C14_compressed_udp_decoding",
    "C14_compressed_udp_partition"
   ],
   "note": ""
  },
  {
   "property": "C15",
   "status": "proved",
   "theorems": [
    "C15_homebrew_decoding",
    "C15_homebrew_unknown_command",
    "C15_homebrew_undecodable"
   ],
   "note": ""
  },
  {
   "property": "C16",
   "status": "proved",
   "theorems": [
    "C16_homebrew_dmrd",
    "C16_mmdvm_dmrd"
   ],
   "note": ""
  },
  {
   "property": "C17",
   "status": "proved",
   "theorems": [
    "C17_homebrew_closing_or_configuration",
    "C17_mmdvm_closing_or_configuration",
    "C17_homebrew_lookahead",
    "C17_mmdvm_lookahead",
    "C17_configuration_for_every_id_refuted",
    "C17_configuration_for_large_id_refuted"
   ],
   "note": "the user expectation about configuration packets is false of the code: the two _refuted theorems cover every affected repeater id"
  },
  {
   "property": "C18",
   "status": "proved",
   "theorems": [
    "C18_homebrew_configuration_accepts",
    "C18_mmdvm_configuration_accepts",
    "C18_homebrew_configuration_roundtrip",
    "C18_mmdvm_configuration_roundtrip",
    "C18_homebrew_configuration_injective",
    "C18_mmdvm_configuration_injective"
   ],
   "note": ""
  },
  {
   "property": "C19",
   "status": "proved",
   "theorems": [
    "C19_mmdvm_decoding",
    "C19_mmdvm_unknown_command",
    "C19_mmdvm_undecodable"
   ],
   "note": ""
  },
  {
   "property": "C20",
   "status": "proved",
   "theorems": [
    "C20_radio_ip_decoding",
    "C20_radio_ip_derived",
    "C20_dotted_injective",
    "C20_radio_id_determines"
   ],
   "note": ""
  },
  {
   "property": "C21",
   "status": "proved",
   "theorems": [
    "C21_radio_id_decoding",
    "C21_radio_id_derived",
    "C21_radio_id_range"
   ],
   "note": ""
  },
  {
   "property": "C22",
   "status": "proved",
   "theorems": [
    "C22_gpsdata_decoding",
    "C22_split",
    "C22_gps_available"
   ],
   "note": ""
  },
  {
   "property": "C23",
   "status": "proved",
   "theorems": [
    "C23_registration"
   ],
   "note": ""
  },
  {
   "property": "C24",
   "status": "proved",
   "theorems": [
    "C24_delivery_states"
   ],
   "note": ""
  },
  {
   "property": "C25",
   "status": "proved",
   "theorems": [
    "C25_data_transmit"
   ],
   "note": ""
  },
  {
   "property": "C26",
   "status": "proved",
   "theorems": [
    "C26_text_message",
    "C26_presence"
   ],
   "note": ""
  },
  {
   "property": "C27",
   "status": "proved",
   "theorems": [
    "C27_location_decoding",
    "C27_body_by_opcode",
    "C27_quick_gps_payload",
    "C27_rssi"
   ],
   "note": ""
  },
  {
   "property": "C28",
   "status": "proved",
   "theorems": [
    "C28_opcode_history",
    "C28_opcode_stand_alone",
    "C28_opcode_embedded_refuted"
   ],
   "note": "embedded messages: the expectation is false of the code for every HDAP packet (C28_opcode_embedded_refuted)"
  },
  {
   "property": "C29",
   "status": "proved",
   "theorems": [
    "C29_telemetry_decoding",
    "C29_body_by_opcode",
    "C29_telemetry_embedded_refuted"
   ],
   "note": "embedded messages: false of the code, C29_telemetry_embedded_refuted says what is decoded instead, for every packet"
  },
  {
   "property": "C30",
   "status": "proved",
   "theorems": [
    "C30_radio_control"
   ],
   "note": ""
  },
  {
   "property": "C31",
   "status": "proved",
   "theorems": [
    "C31_embedded_in_hdap",
    "C31_hdap_embedded_in_hrnp",
    "C31_hdap_embedded_in_hstrp",
    "C31_telemetry_refuted"
   ],
   "note": "telemetry is excluded, C31_telemetry_refuted gives a witness; see C29 for the total description"
  },
  {
   "property": "C32",
   "status": "proved",
   "theorems": [
    "C32_hdap_framing",
    "C32_hdap_footer",
    "C32_unknown_header"
   ],
   "note": ""
  },
  {
   "property": "C33",
   "status": "proved",
   "theorems": [
    "C33_length_and_checksum_not_enforced",
    "C33_hrnp_framing",
    "C33_data_iff_opcode"
   ],
   "note": ""
  },
  {
   "property": "C34",
   "status": "proved",
   "theorems": [
    "C34_hstrp_framing",
    "C34_hstrp_decoding",
    "C34_hstrp_determined",
    "C34_bad_header"
   ],
   "note": ""
  },
  {
   "property": "C35",
   "status": "proved",
   "theorems": [
    "C35_ipsc_decoding"
   ],
   "note": ""
  },
  {
   "property": "C36",
   "status": "proved",
   "theorems": [
    "C36_ipsc_derived"
   ],
   "note": ""
  },
  {
   "property": "C37",
   "status": "proved",
   "theorems": [
    "C37_heartbeat_classification"
   ],
   "note": ""
  },
  {
   "property": "C38",
   "status": "proved",
   "theorems": [
    "C38_rtp_decoding",
    "C38_rtp_partition"
   ],
   "note": ""
  },
  {
   "property": "C39",
   "status": "proved",
   "theorems": [
    "C39_ars_decoding",
    "C39_registration",
    "C39_registration_complete",
    "C39_other_messages",
    "C39_short"
   ],
   "note": ""
  },
  {
   "property": "C40",
   "status": "proved",
   "theorems": [
    "C40_tmp_decoding",
    "C40_short",
    "C40_custom_pdu_type",
    "C40_content_type_injective"
   ],
   "note": ""
  },
  {
   "property": "C41",
   "status": "proved",
   "theorems": [
    "C41_text_header_sequence_number",
    "C41_ack_header_sequence_number",
    "C41_collisions",
    "C41_distinct_sequence_numbers_refuted"
   ],
   "note": "injectivity and availability are false of the code: C41_distinct_sequence_numbers_refuted, exact collisions in C41_collisions"
  },
  {
   "property": "C42",
   "status": "proved",
   "theorems": [
    "C42_one_document",
    "C42_all_documents_refuted"
   ],
   "note": "the documented list of all documents is never obtained: C42_all_documents_refuted"
  },
  {
   "property": "C43",
   "status": "proved",
   "theorems": [
    "C43_uintvar_bytes",
    "C43_uintvar_value",
    "C43_roundtrip",
    "C43_every_number",
    "C43_documented_bound_refuted"
   ],
   "note": "C43_documented_bound_refuted: the 32 bit bound of the documentation is not enforced"
  },
  {
   "property": "C44",
   "status": "proved",
   "theorems": [
    "C44_sintvar_value",
    "C44_negative_roundtrip",
    "C44_positive_refuted"
   ],
   "note": "no positive number decodes to itself: C44_positive_refuted"
  },
  {
   "property": "C45",
   "status": "proved",
   "theorems": [
    "C45_correct_rounding",
    "C45_ufloat_exact",
    "C45_sfloat_exact",
    "C45_negative_sfloat",
    "C45_positive_sfloat_refuted"
   ],
   "note": "positive signed numbers with an integer part come out wrong: C45_positive_sfloat_refuted; empty payloads (IndexError) and NaN/inf do not occur in the model"
  },
  {
   "property": "C46",
   "status": "proved",
   "theorems": [
    "C46_byteswap",
    "C46_twice",
    "C46_lossy"
   ],
   "note": ""
  },
  {
   "property": "C47",
   "status": "proved",
   "theorems": [
    "C47_bytes_untouched",
    "C47_bytearray_swapped",
    "C47_bytearray_twice"
   ],
   "note": ""
  },
  {
   "property": "C48",
   "status": "proved",
   "theorems": [
    "C48_any_graph",
    "C48_parsed_objects"
   ],
   "note": ""
  },
  {
   "property": "C49",
   "status": "proved",
   "theorems": [
    "C49_message",
    "C49_ipsc_message",
    "C49_scripts",
    "C49_run",
    "C49_no_arguments"
   ],
   "note": ""
  },
  {
   "property": "C50",
   "status": "proved",
   "theorems": [
    "C50_fromhex",
    "C50_rejects",
    "C50_roundtrip"
   ],
   "note": ""
  },
  {
   "property": "C51",
   "status": "proved",
   "theorems": [
    "C51_decode_lossless",
    "C51_encode_then_decode",
    "C51_encode_then_decode_ascii",
    "C51_strict"
   ],
   "note": ""
  },
  {
   "property": "C52",
   "status": "proved",
   "theorems": [
    "C52_hdap",
    "C52_hrnp",
    "C52_data_header",
    "C52_link_control_crc",
    "C52_link_control_cs5",
    "C52_link_control_unknown"
   ],
   "note": ""
  },
  {
   "property": "C53",
   "status": "proved",
   "theorems": [
    "C53_only_that_attribute_changes",
    "C53_both_parse"
   ],
   "note": ""
  },
  {
   "property": "C54",
   "status": "proved",
   "theorems": [
    "C54_every_parser_has_its_definition",
    "C54_parsers_implement_their_definitions",
    "C54_from_bytes",
    "C54_enums",
    "C54_instances"
   ],
   "note": ""
  },
  {
   "property": "C55",
   "status": "proved",
   "theorems": [
    "C55_telemetry_specific_service",
    "C55_rtp_len_padding",
    "C55_custom_pdu_type",
    "C55_option_sum_len"
   ],
   "note": ""
  },
  {
   "property": "C56",
   "status": "proved",
   "theorems": [
    "C56_truncated_packets",
    "C56_other_exceptions_are_final",
    "C56_reception_in_pieces",
    "C56_prefix_free"
   ],
   "note": ""
  },
  {
   "property": "C57",
   "status": "proved",
   "theorems": [
    "C57_anywhere_in_a_stream",
    "C57_one_after_the_other",
    "C57_application_messages",
    "C57_position_dependent_classes"
   ],
   "note": ""
  },
  {
   "property": "C58",
   "status": "proved",
   "theorems": [
    "C58_objects_conform",
    "C58_objects_inside_conform",
    "C58_members_are_declared",
    "C58_csbk"
   ],
   "note": ""
  },
  {
   "property": "C59",
   "status": "proved",
   "theorems": [
    "C59_same_object_same_bits",
    "C59_same_object_same_bytes",
    "C59_different_packets_different_objects",
    "C59_text_message_drops_three_bits"
   ],
   "note": ""
  },
  {
   "property": "C60",
   "status": "proved",
   "theorems": [
    "C60_bits_read_are_the_attributes",
    "C60_bytes_read_are_the_attributes",
    "C60_packet_is_its_attributes",
    "C60_fails_for_text_message"
   ],
   "note": ""
  },
  {
   "property": "C61",
   "status": "proved",
   "theorems": [
    "C61_accepts_exactly_the_grammar",
    "C61_exactly_the_object",
    "C61_well_formed_packets_are_accepted",
    "C61_other_packets_are_rejected",
    "C61_unambiguous"
   ],
   "note": ""
  },
  {
   "property": "C62",
   "status": "proved",
   "theorems": [
    "C62_every_order_works",
    "C62_order_does_not_matter",
    "C62_old_runtime_is_refused",
    "C62_modules_without_the_runtime"
   ],
   "note": ""
  },
  {
   "property": "C63",
   "status": "proved",
   "theorems": [
    "C63_properties_do_not_move_the_file",
    "C63_a_failing_property_can_move_the_file",
    "C63_back_to_back",
    "C63_answers_as_stand_alone",
    "C63_data_comes_from_the_start_of_the_file",
    "C63_opcode_comes_from_the_start_of_the_file",
    "C63_from_file"
   ],
   "note": "129 self-delimiting classes minus the position-dependent ones of C57 (application messages other than telemetry included). Attribute accesses are those of the top-level objects; nested objects' properties that read the file (hdap.data.opcode) are covered by C63_properties_do_not_move_the_file only."
  },
  {
   "property": "C64",
   "status": "proved",
   "theorems": [
    "C64_class_bounds",
    "C64_every_class",
    "C64_linear",
    "C64_depth"
   ],
   "note": "The table covers every class with a from_bytes (C64_every_class); the coefficients are upper bounds, exact for fixed layouts and not claimed to be the least. Caches left by the constructor count in size; caches made by later property accesses are at most one small value per property and are not counted. Caches do not count in depth."
  },
  {
   "property": "C65",
   "status": "proved",
   "theorems": [
    "C65_uninterrupted",
    "C65_any_schedule",
    "C65_once_computed",
    "C65_data_contained",
    "C65_data_race",
    "C65_opcode_race",
    "C65_fifth_letter_race"
   ],
   "note": "Atomic steps: one operation on the dictionary of the object, one operation of KaitaiStream, or a computation on local values and stored attributes; see ThreadModel.v. The four racing properties are refuted for concurrent first reads (C65_data_race, C65_opcode_race, C65_fifth_letter_race) and proved otherwise; containment is proved for data. Threads on several objects of one open file, and threads during a constructor, are not covered."
  },
  {
   "property": "C66",
   "status": "proved",
   "theorems": [
    "C66_raises",
    "C66_accepted",
    "C66_program"
   ],
   "note": "C66_raises is an equivalence (raises exactly then) for every property and every object that conforms to the format definition of its class; C66_accepted says objects in accepted packets are such, at any depth; C66_program is about any program on one file. `raises` is the specification: seven clauses on the attributes and the bytes. The file is assumed to have a first byte (all these objects are read from at least one)."
  },
  {
   "property": "C67",
   "status": "proved",
   "theorems": [
    "C67_same_answers",
    "C67_any_state",
    "C67_accepted_by_both"
   ],
   "note": "`outcomes` is what a program sees of a history of accesses and seeks. C67_same_answers is for fresh objects of every class, C67_any_state for any state of any object. The position the file is left at is not compared."
  },
  {
   "property": "C68",
   "status": "proved",
   "theorems": [
    "C68_told_apart",
    "C68_confusable",
    "C68_homebrew_dialects",
    "C68_dialects_agree",
    "C68_configuration"
   ],
   "note": "`takes` is the specification: accepted, and not only as unknown bytes. C68_told_apart and C68_confusable together decide all 21 pairs; C68_homebrew_dialects C68_dialects_agree and C68_configuration are about the pair of dialects (`plain` drops the module name in front of class and enumeration names)."
  }
 ]
}