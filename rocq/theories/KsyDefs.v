(** The 28 .ksy files of the repository as data (Ksy.v), transcribed attribute by attribute in file order;
    documentation strings are left out.  Generated from the .ksy files. *)
From Verif Require Import PyBase Codec Ksy.
Open Scope string_scope.
Open Scope list_scope.
Open Scope Z_scope.

(** etsi/dmr_csbk.ksy:7 enum [csbko_types] *)
Definition K_DmrCsbk_CsbkoTypes : enumdef := kenum "DmrCsbk.CsbkoTypes" [(56, "bs_outbound_activation_csbk_pdu");
    (4, "unit_to_unit_voice_service_request");
    (5, "unit_to_unit_voice_service_answer_response");
    (38, "negative_acknowledge_response");
    (61, "preamble");
    (7, "channel_timing")].

(** etsi/dmr_csbk.ksy:14 enum [csbk_data_or_csbk] *)
Definition K_DmrCsbk_CsbkDataOrCsbk : enumdef := kenum "DmrCsbk.CsbkDataOrCsbk" [(0, "csbk_content_follows_preambles");
    (1, "data_content_follows_preambles")].

(** etsi/dmr_csbk.ksy:17 enum [csbk_group_or_individual] *)
Definition K_DmrCsbk_CsbkGroupOrIndividual : enumdef := kenum "DmrCsbk.CsbkGroupOrIndividual" [(0, "target_address_is_an_individual");
    (1, "target_address_is_a_group")].

(** etsi/dmr_csbk.ksy:20 enum [answer_response] *)
Definition K_DmrCsbk_AnswerResponse : enumdef := kenum "DmrCsbk.AnswerResponse" [(32, "proceed");
    (33, "deny")].

(** etsi/dmr_data_header.ksy:7 enum [data_packet_formats] *)
Definition K_DmrDataHeader_DataPacketFormats : enumdef := kenum "DmrDataHeader.DataPacketFormats" [(0, "unified_data_transport");
    (1, "response_packet");
    (2, "data_packet_unconfirmed");
    (3, "data_packet_confirmed");
    (13, "short_data_defined");
    (14, "short_data_raw_or_status_or_precoded");
    (15, "proprietary")].

(** etsi/dmr_data_header.ksy:15 enum [sap_identifiers] *)
Definition K_DmrDataHeader_SapIdentifiers : enumdef := kenum "DmrDataHeader.SapIdentifiers" [(0, "unified_data_transport");
    (2, "tcp_ip_header_compression");
    (3, "udp_ip_header_compression");
    (4, "ip_based_packet_data");
    (5, "arp_address_resolution_protocol");
    (9, "proprietary_packet_data");
    (10, "short_data")].

(** etsi/dmr_data_header.ksy:23 enum [udt_formats] *)
Definition K_DmrDataHeader_UdtFormats : enumdef := kenum "DmrDataHeader.UdtFormats" [(0, "binary");
    (1, "ms_or_tg_address");
    (2, "bcd_4bit");
    (3, "iso_7bit_coded_characters");
    (4, "iso_8bit_coded_characters");
    (5, "nmea_location_coded");
    (6, "ip_address");
    (7, "unicode_16bit_characters");
    (8, "manufacturer_specific");
    (9, "manufacturer_specific_2");
    (10, "mixed_address_and_16bit_utf16be_characters")].

(** etsi/dmr_data_header.ksy:35 enum [csbk_mbc_udt_opcodes] *)
Definition K_DmrDataHeader_CsbkMbcUdtOpcodes : enumdef := kenum "DmrDataHeader.CsbkMbcUdtOpcodes" [(48, "pv_grant");
    (49, "tv_grant");
    (50, "btv_grant");
    (51, "pd_grant");
    (52, "td_grant");
    (53, "pv_grant_dx");
    (54, "pd_grant_dx");
    (55, "pd_grant_mi");
    (56, "td_grant_mi");
    (57, "c_move");
    (25, "c_aloha");
    (40, "c_bcast");
    (46, "p_clear");
    (47, "p_protect");
    (28, "c_or_p_ahoy");
    (32, "c_ackd");
    (33, "c_acku");
    (34, "p_ackd");
    (35, "p_acku");
    (26, "c_udthd");
    (27, "c_udthu");
    (36, "c_dgnahd");
    (37, "c_dgnahu");
    (31, "c_rand");
    (30, "c_ackvit");
    (42, "p_maint")].

(** etsi/dmr_data_header.ksy:62 enum [defined_data_formats] *)
Definition K_DmrDataHeader_DefinedDataFormats : enumdef := kenum "DmrDataHeader.DefinedDataFormats" [(0, "binary");
    (1, "bcd");
    (2, "coding_7bit");
    (3, "coding_8bit_8859_1");
    (4, "coding_8bit_8859_2");
    (5, "coding_8bit_8859_3");
    (6, "coding_8bit_8859_4");
    (7, "coding_8bit_8859_5");
    (8, "coding_8bit_8859_6");
    (9, "coding_8bit_8859_7");
    (10, "coding_8bit_8859_8");
    (11, "coding_8bit_8859_9");
    (12, "coding_8bit_8859_10");
    (13, "coding_8bit_8859_11");
    (14, "coding_8bit_8859_13");
    (15, "coding_8bit_8859_14");
    (16, "coding_8bit_8859_15");
    (17, "coding_8bit_8859_16");
    (18, "unicode_utf8");
    (19, "unicode_utf16");
    (20, "unicode_utf16be");
    (21, "unicode_utf16le");
    (22, "unicode_utf32");
    (23, "unicode_utf32be");
    (24, "unicode_utf32le")].

(** etsi/dmr_data_header.ksy:88 enum [response_packet_classes] *)
Definition K_DmrDataHeader_ResponsePacketClasses : enumdef := kenum "DmrDataHeader.ResponsePacketClasses" [(0, "ack");
    (1, "nack");
    (2, "sack")].

(** etsi/dmr_ip_udp.ksy:7 enum [source_ip_address_ids] *)
Definition K_DmrIpUdp_SourceIpAddressIds : enumdef := kenum "DmrIpUdp.SourceIpAddressIds" [(0, "radio_network");
    (1, "usb_ethernet_interface_network")].

(** etsi/dmr_ip_udp.ksy:10 enum [destination_ip_address_ids] *)
Definition K_DmrIpUdp_DestinationIpAddressIds : enumdef := kenum "DmrIpUdp.DestinationIpAddressIds" [(0, "radio_network");
    (1, "usb_ethernet_interface_network");
    (2, "group_network")].

(** etsi/dmr_ip_udp.ksy:14 enum [udp_port_ids] *)
Definition K_DmrIpUdp_UdpPortIds : enumdef := kenum "DmrIpUdp.UdpPortIds" [(0, "present_in_extended_header");
    (1, "utf16be_text_message_port_5016");
    (2, "location_interface_protocol")].

(** etsi/full_link_control.ksy:7 enum [flcos] *)
Definition K_FullLinkControl_Flcos : enumdef := kenum "FullLinkControl.Flcos" [(0, "group_voice");
    (3, "unit_to_unit_voice");
    (8, "gps_info");
    (4, "talker_alias_header");
    (5, "talker_alias_block1");
    (6, "talker_alias_block2");
    (7, "talker_alias_block3")].

(** etsi/full_link_control.ksy:15 enum [position_errors] *)
Definition K_FullLinkControl_PositionErrors : enumdef := kenum "FullLinkControl.PositionErrors" [(0, "less_than_2m");
    (1, "less_than_20m");
    (2, "less_than_200m");
    (3, "less_than_2km");
    (4, "less_than_20km");
    (5, "less_than_or_equal_200km");
    (6, "more_than_200km");
    (7, "position_error_unknown_or_invalid")].

(** etsi/full_link_control.ksy:24 enum [talker_data_formats] *)
Definition K_FullLinkControl_TalkerDataFormats : enumdef := kenum "FullLinkControl.TalkerDataFormats" [(0, "coding_7bit");
    (1, "coding_8bit");
    (2, "unicode_utf8");
    (3, "unicode_utf16")].

(** etsi/full_link_control.ksy:29 enum [feature_set_ids] *)
Definition K_FullLinkControl_FeatureSetIds : enumdef := kenum "FullLinkControl.FeatureSetIds" [(0, "standardized_ts_102_361_2");
    (1, "reserved1");
    (2, "reserved2");
    (3, "reserved3");
    (4, "mfid_start");
    (127, "mfid_end");
    (128, "mfid_reserved_start");
    (255, "mfid_reserved_end")].

(** homebrew/homebrew2015.ksy:7 enum [timeslots] *)
Definition K_Homebrew2015_Timeslots : enumdef := kenum "Homebrew2015.Timeslots" [(0, "timeslot_1");
    (1, "timeslot_2")].

(** homebrew/homebrew2015.ksy:10 enum [call_types] *)
Definition K_Homebrew2015_CallTypes : enumdef := kenum "Homebrew2015.CallTypes" [(0, "group_call");
    (1, "private_call")].

(** homebrew/homebrew2015.ksy:13 enum [frame_types] *)
Definition K_Homebrew2015_FrameTypes : enumdef := kenum "Homebrew2015.FrameTypes" [(0, "voice_data");
    (1, "voice_sync");
    (2, "data_or_data_sync");
    (3, "unused")].

(** homebrew/mmdvm2020.ksy:7 enum [timeslots] *)
Definition K_Mmdvm2020_Timeslots : enumdef := kenum "Mmdvm2020.Timeslots" [(0, "timeslot_1");
    (1, "timeslot_2")].

(** homebrew/mmdvm2020.ksy:10 enum [call_types] *)
Definition K_Mmdvm2020_CallTypes : enumdef := kenum "Mmdvm2020.CallTypes" [(0, "group_call");
    (1, "private_call")].

(** homebrew/mmdvm2020.ksy:13 enum [frame_types] *)
Definition K_Mmdvm2020_FrameTypes : enumdef := kenum "Mmdvm2020.FrameTypes" [(0, "voice_data");
    (1, "voice_sync");
    (2, "data_or_data_sync");
    (3, "unused")].

(** homebrew/mmdvm2020.ksy:18 enum [talker_alias_types] *)
Definition K_Mmdvm2020_TalkerAliasTypes : enumdef := kenum "Mmdvm2020.TalkerAliasTypes" [(0, "talker_alias_header");
    (1, "talker_alias_block_1");
    (2, "talker_alias_block_2");
    (3, "talker_alias_block_3")].

(** homebrew/mmdvm2020.ksy:23 enum [position_errors] *)
Definition K_Mmdvm2020_PositionErrors : enumdef := kenum "Mmdvm2020.PositionErrors" [(0, "less_than_2m");
    (1, "less_than_20m");
    (2, "less_than_200m");
    (3, "less_than_2km");
    (4, "less_than_20km");
    (5, "less_than_or_equal_200km");
    (6, "more_than_200km");
    (7, "position_error_unknown_or_invalid")].

(** hytera/data_delivery_states.ksy:6 enum [state_types] *)
Definition K_DataDeliveryStates_StateTypes : enumdef := kenum "DataDeliveryStates.StateTypes" [(8, "location_protocol_state");
    (17, "radio_registration_service_state");
    (18, "telemetry_protocol_state");
    (19, "data_transmit_protocol_state")].

(** hytera/data_delivery_states.ksy:11 enum [results] *)
Definition K_DataDeliveryStates_Results : enumdef := kenum "DataDeliveryStates.Results" [(0, "ok");
    (1, "fail");
    (4, "limited_timeout");
    (5, "no_ack");
    (6, "error_ack");
    (7, "repeater_wakeup_fail");
    (8, "tx_interrupted");
    (9, "tx_deny");
    (10, "invalid_params")].

(** hytera/data_transmit_protocol.ksy:6 enum [service_types] *)
Definition K_DataTransmitProtocol_ServiceTypes : enumdef := kenum "DataTransmitProtocol.ServiceTypes" [(160, "data_transmit_protocol")].

(** hytera/data_transmit_protocol.ksy:8 enum [service_specific_types] *)
Definition K_DataTransmitProtocol_ServiceSpecificTypes : enumdef := kenum "DataTransmitProtocol.ServiceSpecificTypes" [(1, "dtp_request");
    (17, "dtp_answer");
    (2, "data_slice_transmit");
    (18, "data_slice_answer");
    (3, "last_data_slice");
    (19, "last_data_slice_answer")].

(** hytera/data_transmit_protocol.ksy:15 enum [results] *)
Definition K_DataTransmitProtocol_Results : enumdef := kenum "DataTransmitProtocol.Results" [(0, "success");
    (1, "failure")].

(** hytera/hytera_dmr_application_protocol.ksy:12 enum [message_header_types] *)
Definition K_HyteraDmrApplicationProtocol_MessageHeaderTypes : enumdef := kenum "HyteraDmrApplicationProtocol.MessageHeaderTypes" [(2, "radio_control_protocol");
    (8, "location_protocol");
    (9, "text_message_protocol");
    (17, "radio_registration");
    (18, "telemetry_protocol");
    (19, "data_transmit_protocol");
    (20, "data_delivery_states")].

(** hytera/hytera_radio_network_protocol.ksy:6 enum [opcodes] *)
Definition K_HyteraRadioNetworkProtocol_Opcodes : enumdef := kenum "HyteraRadioNetworkProtocol.Opcodes" [(254, "connect");
    (253, "accept");
    (252, "reject");
    (251, "close");
    (250, "close_ack");
    (0, "data");
    (16, "data_ack")].

(** hytera/hytera_simple_transport_reliability_protocol.ksy:42 enum [option_commands] *)
Definition K_HyteraSimpleTransportReliabilityProtocol_OptionCommands : enumdef := kenum "HyteraSimpleTransportReliabilityProtocol.OptionCommands" [(1, "realtime");
    (3, "device_id");
    (4, "channel_id")].

(** hytera/ip_site_connect_protocol.ksy:7 enum [slot_types] *)
Definition K_IpSiteConnectProtocol_SlotTypes : enumdef := kenum "IpSiteConnectProtocol.SlotTypes" [(0, "slot_type_privacy_indicator");
    (4369, "slot_type_voice_lc_header");
    (8738, "slot_type_terminator_with_lc");
    (13107, "slot_type_csbk");
    (17476, "slot_type_data_header");
    (21845, "slot_type_rate_12_data");
    (26214, "slot_type_rate_34_data");
    (30583, "slot_type_data_a");
    (34952, "slot_type_data_b");
    (39321, "slot_type_data_c");
    (43690, "slot_type_data_d");
    (48059, "slot_type_data_e");
    (52428, "slot_type_data_f");
    (56797, "slot_type_wakeup_request");
    (61166, "slot_type_sync")].

(** hytera/ip_site_connect_protocol.ksy:24 enum [frame_types] *)
Definition K_IpSiteConnectProtocol_FrameTypes : enumdef := kenum "IpSiteConnectProtocol.FrameTypes" [(4369, "frame_type_voice_sync");
    (13107, "frame_type_data_sync_or_csbk");
    (61166, "frame_type_sync");
    (26214, "frame_type_data_header");
    (48059, "frame_type_voice");
    (0, "frame_type_data")].

(** hytera/ip_site_connect_protocol.ksy:31 enum [packet_types] *)
Definition K_IpSiteConnectProtocol_PacketTypes : enumdef := kenum "IpSiteConnectProtocol.PacketTypes" [(1, "pi_header");
    (65, "a");
    (66, "b");
    (67, "terminator")].

(** hytera/ip_site_connect_protocol.ksy:36 enum [timeslots] *)
Definition K_IpSiteConnectProtocol_Timeslots : enumdef := kenum "IpSiteConnectProtocol.Timeslots" [(4369, "timeslot_1");
    (8738, "timeslot_2")].

(** hytera/ip_site_connect_protocol.ksy:39 enum [call_types] *)
Definition K_IpSiteConnectProtocol_CallTypes : enumdef := kenum "IpSiteConnectProtocol.CallTypes" [(0, "private_call");
    (1, "group_call");
    (2, "wakeup_call_2");
    (12, "wakeup_call_c")].

(** hytera/location_protocol.ksy:10 enum [lp_general_types] *)
Definition K_LocationProtocol_LpGeneralTypes : enumdef := kenum "LocationProtocol.LpGeneralTypes" [(160, "standard_location_immediate_service");
    (176, "emergency_location_reporting_service");
    (192, "triggered_location_reporting_service");
    (208, "condition_triggered_reporting_service");
    (224, "rssi_report_configuring_service")].

(** hytera/location_protocol.ksy:16 enum [lp_specific_types] *)
Definition K_LocationProtocol_LpSpecificTypes : enumdef := kenum "LocationProtocol.LpSpecificTypes" [(40961, "standard_request");
    (40962, "standard_answer");
    (40963, "standard_answer_with_rssi");
    (40964, "standard_answer_gps_bt");
    (45057, "emergency_report_stop_request");
    (45058, "emergency_report_stop_answer");
    (45059, "emergency_report");
    (49153, "triggered_report_request");
    (49154, "triggered_report_answer");
    (49155, "triggered_report");
    (49156, "triggered_report_stop_request");
    (49157, "triggered_report_stop_answer");
    (53249, "condition_report_request");
    (53250, "condition_report_answer");
    (53251, "condition_report");
    (53252, "condition_report_with_rssi");
    (53265, "condition_quick_gps_request");
    (53266, "condition_quick_gps_answer")].

(** hytera/location_protocol.ksy:35 enum [cmd_types] *)
Definition K_LocationProtocol_CmdTypes : enumdef := kenum "LocationProtocol.CmdTypes" [(0, "cancel_request");
    (1, "start_request")].

(** hytera/location_protocol.ksy:38 enum [trigger_types] *)
Definition K_LocationProtocol_TriggerTypes : enumdef := kenum "LocationProtocol.TriggerTypes" [(0, "cancel_request");
    (1, "distance");
    (2, "time");
    (3, "distance_and_time");
    (4, "distance_or_time")].

(** hytera/location_protocol.ksy:44 enum [result_codes] *)
Definition K_LocationProtocol_ResultCodes : enumdef := kenum "LocationProtocol.ResultCodes" [(0, "ok");
    (6, "position_method_failure");
    (105, "request_format_error")].

(** hytera/radio_control_protocol.ksy:5 enum [service_types] *)
Definition K_RadioControlProtocol_ServiceTypes : enumdef := kenum "RadioControlProtocol.ServiceTypes" [(4, "radio_identification_request");
    (33492, "radio_identification_reply");
    (2113, "call_request");
    (34881, "call_reply");
    (2114, "remove_radio_request");
    (34882, "remove_radio_reply");
    (4297, "broadcast_status_configuration_request");
    (32969, "broadcast_status_configuration_reply");
    (47171, "broadcast_transmit_status");
    (47428, "broadcast_receive_status");
    (47173, "repeater_broadcast_transmit_status");
    (65, "button_and_keyboard_operation_request");
    (32833, "button_and_keyboard_operation_reply");
    (196, "zone_and_channel_operation_request");
    (32964, "zone_and_channel_operation_reply");
    (513, "radio_message_query_request");
    (33281, "radio_message_query_reply");
    (231, "channel_status_or_param_check_request");
    (32999, "channel_status_or_param_check_reply");
    (237, "function_status_check_request");
    (33005, "function_status_check_reply");
    (238, "function_enable_disable_request");
    (33006, "function_enable_disable_reply");
    (68, "internal_external_mic_gain_check_control_request");
    (32836, "internal_external_mic_gain_check_control_reply");
    (67, "internal_external_mic_enable_disable_request");
    (32835, "internal_external_mic_enable_disable_reply");
    (69, "internal_external_speaker_enable_disable_request");
    (32837, "internal_external_speaker_enable_disable_reply");
    (70, "volume_check_control_request");
    (32838, "volume_check_control_reply");
    (305, "channel_alias_request");
    (33073, "channel_alias_reply");
    (1104, "channel_number_of_zone_request");
    (33872, "channel_number_of_zone_reply");
    (202, "radio_connect_login_request");
    (32970, "radio_connect_login_reply");
    (203, "radio_connect_logout_request");
    (32971, "radio_connect_logout_reply");
    (4295, "radio_status_configure_request");
    (32967, "radio_status_configure_reply");
    (45256, "radio_status_report");
    (192, "radio_configure_over_air_request");
    (32960, "radio_configure_over_air_reply");
    (2118, "delete_subject_line_message_request");
    (34886, "delete_subject_line_message_reply");
    (1105, "update_authentication_key_request");
    (33873, "update_authentication_key_reply");
    (1106, "radio_id_and_radio_ip_query_request");
    (33874, "radio_id_and_radio_ip_query_reply");
    (2121, "radio_disable");
    (34889, "radio_disable_ack");
    (2122, "radio_enable");
    (34890, "radio_enable_ack");
    (2099, "radio_check");
    (34867, "radio_check_ack");
    (2100, "remote_monitor");
    (34868, "remote_monitor_ack");
    (2101, "allert_call");
    (34869, "alert_call_ack")].

(** hytera/radio_control_protocol.ksy:66 enum [call_types] *)
Definition K_RadioControlProtocol_CallTypes : enumdef := kenum "RadioControlProtocol.CallTypes" [(0, "private_call");
    (1, "group_call");
    (2, "all_call");
    (3, "emergency_group_call");
    (4, "remote_monitor_call");
    (5, "reserved");
    (6, "priority_private_call");
    (7, "priority_group_call");
    (8, "priority_all_call")].

(** hytera/radio_control_protocol.ksy:76 enum [reply_results] *)
Definition K_RadioControlProtocol_ReplyResults : enumdef := kenum "RadioControlProtocol.ReplyResults" [(0, "success");
    (1, "failure")].

(** hytera/radio_registration_service.ksy:6 enum [rrs_types] *)
Definition K_RadioRegistrationService_RrsTypes : enumdef := kenum "RadioRegistrationService.RrsTypes" [(3, "registration");
    (128, "registration_ack");
    (1, "de_registration");
    (2, "online_check");
    (130, "online_check_ack")].

(** hytera/real_time_transport_protocol.ksy:9 enum [rtp_payload_types] *)
Definition K_RealTimeTransportProtocol_RtpPayloadTypes : enumdef := kenum "RealTimeTransportProtocol.RtpPayloadTypes" [(0, "mu_law");
    (8, "a_law")].

(** hytera/real_time_transport_protocol.ksy:14 enum [call_types] *)
Definition K_RealTimeTransportProtocol_CallTypes : enumdef := kenum "RealTimeTransportProtocol.CallTypes" [(0, "private_call");
    (1, "group_call");
    (2, "all_call")].

(** hytera/telemetry_protocol.ksy:6 enum [service_types] *)
Definition K_TelemetryProtocol_ServiceTypes : enumdef := kenum "TelemetryProtocol.ServiceTypes" [(160, "status_report_service");
    (176, "remote_control_service")].

(** hytera/telemetry_protocol.ksy:9 enum [service_specific_types] *)
Definition K_TelemetryProtocol_ServiceSpecificTypes : enumdef := kenum "TelemetryProtocol.ServiceSpecificTypes" [(40961, "standard_status_request");
    (41089, "standard_status_report");
    (41090, "extended_status_report");
    (45057, "remote_control_request");
    (45185, "remote_control_answer")].

(** hytera/telemetry_protocol.ksy:15 enum [pc_flag_types] *)
Definition K_TelemetryProtocol_PcFlagTypes : enumdef := kenum "TelemetryProtocol.PcFlagTypes" [(0, "controller_is_radio");
    (1, "controller_is_telemetry_application")].

(** hytera/telemetry_protocol.ksy:18 enum [call_types] *)
Definition K_TelemetryProtocol_CallTypes : enumdef := kenum "TelemetryProtocol.CallTypes" [(0, "private_call");
    (1, "group_call");
    (2, "all_call")].

(** hytera/telemetry_protocol.ksy:22 enum [result_types] *)
Definition K_TelemetryProtocol_ResultTypes : enumdef := kenum "TelemetryProtocol.ResultTypes" [(0, "effective");
    (1, "ineffective")].

(** hytera/telemetry_protocol.ksy:25 enum [control_result_types] *)
Definition K_TelemetryProtocol_ControlResultTypes : enumdef := kenum "TelemetryProtocol.ControlResultTypes" [(0, "success");
    (1, "failure")].

(** hytera/telemetry_protocol.ksy:28 enum [operation_types] *)
Definition K_TelemetryProtocol_OperationTypes : enumdef := kenum "TelemetryProtocol.OperationTypes" [(0, "set_ineffective_level");
    (1, "set_effective_level");
    (2, "reverse_level");
    (3, "output_one_pulse")].

(** hytera/text_message_protocol.ksy:6 enum [ack_flags] *)
Definition K_TextMessageProtocol_AckFlags : enumdef := kenum "TextMessageProtocol.AckFlags" [(0, "ack_required");
    (1, "ack_not_required")].

(** hytera/text_message_protocol.ksy:9 enum [option_flags] *)
Definition K_TextMessageProtocol_OptionFlags : enumdef := kenum "TextMessageProtocol.OptionFlags" [(0, "option_len_and_field_disabled");
    (1, "option_len_and_field_enabled")].

(** hytera/text_message_protocol.ksy:12 enum [service_types] *)
Definition K_TextMessageProtocol_ServiceTypes : enumdef := kenum "TextMessageProtocol.ServiceTypes" [(161, "send_private_message");
    (162, "send_private_message_ack");
    (177, "send_group_message");
    (178, "send_group_message_ack")].

(** hytera/text_message_protocol.ksy:17 enum [result_codes] *)
Definition K_TextMessageProtocol_ResultCodes : enumdef := kenum "TextMessageProtocol.ResultCodes" [(0, "ok");
    (1, "fail");
    (3, "invalid_params");
    (4, "channel_busy");
    (5, "rx_only");
    (6, "low_battery");
    (7, "pll_unlock");
    (8, "private_call_no_ack");
    (9, "repeater_wakeup_fail");
    (10, "no_contact");
    (11, "tx_deny");
    (12, "tx_interrupted")].

(** motorola/automatic_registration_service.ksy:5 enum [registration_events] *)
Definition K_AutomaticRegistrationService_RegistrationEvents : enumdef := kenum "AutomaticRegistrationService.RegistrationEvents" [(1, "initial_event");
    (2, "refresh_event")].

(** motorola/automatic_registration_service.ksy:8 enum [failure_reasons] *)
Definition K_AutomaticRegistrationService_FailureReasons : enumdef := kenum "AutomaticRegistrationService.FailureReasons" [(0, "device_not_authorized")].

(** motorola/motorola_binary_xml.ksy:8 enum [docids] *)
Definition K_MotorolaBinaryXml_Docids : enumdef := kenum "MotorolaBinaryXml.Docids" [(4, "lrrp_immediate_request");
    (5, "lrrp_immediate_request_ncdt");
    (6, "lrrp_immediate_response");
    (7, "lrrp_immediate_response_ncdt")].

(** motorola/motorola_binary_xml.ksy:13 enum [lrrp_elements] *)
Definition K_MotorolaBinaryXml_LrrpElements : enumdef := kenum "MotorolaBinaryXml.LrrpElements" [(34, "request_id_22_opaque");
    (35, "request_id_23_opaque_1byte");
    (36, "request_id_24_cdt_reference")].

(** motorola/text_message_protocol.ksy:5 enum [tms_service_capability] *)
Definition K_MotTextMessageProtocol_TmsServiceCapability : enumdef := kenum "TextMessageProtocol.TmsServiceCapability" [(0, "limited_capability");
    (1, "internal_capability");
    (2, "external_capability");
    (3, "full_capability")].

(** etsi/dmr_csbk.ksy:24-38 [dmr_csbk.service_options] *)
Definition T_DmrCsbk_ServiceOptions : typ := Typ ["dmr_csbk"; "service_options"]
  (Attr "is_emergency_service" ETrue Once None (TFlag)
  (Attr "privacy" ETrue Once None (TFlag)
  (Attr "reserved" ETrue Once None (TBits 2)
  (Attr "is_broadcast_service" ETrue Once None (TFlag)
  (Attr "is_open_voice_call_mode" ETrue Once None (TFlag)
  (Attr "priority_level" ETrue Once None (TBits 2)
  Nil)))))).

(** etsi/dmr_csbk.ksy:39-55 [dmr_csbk.preamble_data] *)
Definition T_DmrCsbk_PreambleData : typ := Typ ["dmr_csbk"; "preamble_data"]
  (Attr "preamble_data_or_csbk" ETrue Once (Some K_DmrCsbk_CsbkDataOrCsbk) (TBits 1)
  (Attr "group_or_individual" ETrue Once (Some K_DmrCsbk_CsbkGroupOrIndividual) (TBits 1)
  (Attr "preamble_reserved" ETrue Once None (TBits 6)
  (Attr "preamble_csbk_blocks_to_follow" ETrue Once None (TBits 8)
  (Attr "target_address" ETrue Once None (TBits 24)
  (Attr "source_address" ETrue Once None (TBits 24)
  Nil)))))).

(** etsi/dmr_csbk.ksy:56-63 [dmr_csbk.bs_outbound_activation_data] *)
Definition T_DmrCsbk_BsOutboundActivationData : typ := Typ ["dmr_csbk"; "bs_outbound_activation_data"]
  (Attr "reserved" ETrue Once None (TBits 16)
  (Attr "bs_address" ETrue Once None (TBits 24)
  (Attr "source_address" ETrue Once None (TBits 24)
  Nil))).

(** etsi/dmr_csbk.ksy:64-73 [dmr_csbk.unit_to_unit_voice_request_data] *)
Definition T_DmrCsbk_UnitToUnitVoiceRequestData : typ := Typ ["dmr_csbk"; "unit_to_unit_voice_request_data"]
  (Attr "service_options" ETrue Once None (TLocal T_DmrCsbk_ServiceOptions)
  (Attr "reserved" ETrue Once None (TBits 8)
  (Attr "target_address" ETrue Once None (TBits 24)
  (Attr "source_address" ETrue Once None (TBits 24)
  Nil)))).

(** etsi/dmr_csbk.ksy:74-84 [dmr_csbk.unit_to_unit_voice_answer_data] *)
Definition T_DmrCsbk_UnitToUnitVoiceAnswerData : typ := Typ ["dmr_csbk"; "unit_to_unit_voice_answer_data"]
  (Attr "service_options" ETrue Once None (TLocal T_DmrCsbk_ServiceOptions)
  (Attr "answer_response" ETrue Once (Some K_DmrCsbk_AnswerResponse) (TBits 8)
  (Attr "target_address" ETrue Once None (TBits 24)
  (Attr "source_address" ETrue Once None (TBits 24)
  Nil)))).

(** etsi/dmr_csbk.ksy:85-99 [dmr_csbk.negative_ack_response_data] *)
Definition T_DmrCsbk_NegativeAckResponseData : typ := Typ ["dmr_csbk"; "negative_ack_response_data"]
  (Attr "additional_information_field" ETrue Once None (TFlag)
  (Attr "source_type" ETrue Once None (TFlag)
  (Attr "service_type" ETrue Once None (TBits 6)
  (Attr "reason_code" ETrue Once None (TBits 8)
  (Attr "source_address" ETrue Once None (TBits 24)
  (Attr "target_address" ETrue Once None (TBits 24)
  Nil)))))).

(** etsi/dmr_csbk.ksy:100-121 [dmr_csbk.channel_timing_data] *)
Definition T_DmrCsbk_ChannelTimingData : typ := Typ ["dmr_csbk"; "channel_timing_data"]
  (Attr "sync_age" ETrue Once None (TBits 11)
  (Attr "generation" ETrue Once None (TBits 5)
  (Attr "leader_identifier" ETrue Once None (TBits 20)
  (Attr "new_leader" ETrue Once None (TFlag)
  (Attr "leader_dynamic_identifier" ETrue Once None (TBits 2)
  (Attr "channel_timing_op1" ETrue Once None (TFlag)
  (Attr "source_identifier" ETrue Once None (TBits 20)
  (Attr "reserved" ETrue Once None (TFlag)
  (Attr "source_dynamic_identifier" ETrue Once None (TBits 2)
  (Attr "channel_timing_op0" ETrue Once None (TFlag)
  Nil)))))))))).

(** etsi/dmr_csbk.ksy:1-145 [dmr_csbk] *)
Definition T_DmrCsbk : typ := Typ ["dmr_csbk"]
  (Attr "last_block" ETrue Once None (TFlag)
  (Attr "protect_flag" ETrue Once None (TFlag)
  (Attr "csbk_opcode" ETrue Once (Some K_DmrCsbk_CsbkoTypes) (TBits 6)
  (Attr "feature_set_id" ETrue Once None (TBits 8)
  (Attr "csbk_data" ETrue Once None (TSwitch (EAttr Self "csbk_opcode")
      (CCons (KMember K_DmrCsbk_CsbkoTypes "bs_outbound_activation_csbk_pdu") (TLocal T_DmrCsbk_BsOutboundActivationData)
      (CCons (KMember K_DmrCsbk_CsbkoTypes "unit_to_unit_voice_service_request") (TLocal T_DmrCsbk_UnitToUnitVoiceRequestData)
      (CCons (KMember K_DmrCsbk_CsbkoTypes "unit_to_unit_voice_service_answer_response") (TLocal T_DmrCsbk_UnitToUnitVoiceAnswerData)
      (CCons (KMember K_DmrCsbk_CsbkoTypes "negative_acknowledge_response") (TLocal T_DmrCsbk_NegativeAckResponseData)
      (CCons (KMember K_DmrCsbk_CsbkoTypes "preamble") (TLocal T_DmrCsbk_PreambleData)
      (CCons (KMember K_DmrCsbk_CsbkoTypes "channel_timing") (TLocal T_DmrCsbk_ChannelTimingData)
      CNil)))))))
  Nil))))).

(** etsi/dmr_data.ksy:7-16 [dmr_data.rate_34_confirmed] *)
Definition T_DmrData_Rate34Confirmed : typ := Typ ["dmr_data"; "rate_34_confirmed"]
  (Attr "data_block_serial_number" ETrue Once None (TBits 7)
  (Attr "crc9" ETrue Once None (TBits 9)
  (Attr "user_data" ETrue Once None (TBytes (EInt 16))
  Nil))).

(** etsi/dmr_data.ksy:17-22 [dmr_data.rate_34_unconfirmed] *)
Definition T_DmrData_Rate34Unconfirmed : typ := Typ ["dmr_data"; "rate_34_unconfirmed"]
  (Attr "user_data" ETrue Once None (TBytes (EInt 18))
  Nil).

(** etsi/dmr_data.ksy:23-34 [dmr_data.rate_34_last_block_confirmed] *)
Definition T_DmrData_Rate34LastBlockConfirmed : typ := Typ ["dmr_data"; "rate_34_last_block_confirmed"]
  (Attr "data_block_serial_number" ETrue Once None (TBits 7)
  (Attr "crc9" ETrue Once None (TBits 9)
  (Attr "user_data" ETrue Once None (TBytes (EInt 12))
  (Attr "message_crc32" ETrue Once None (TBytes (EInt 4))
  Nil)))).

(** etsi/dmr_data.ksy:35-42 [dmr_data.rate_34_last_block_unconfirmed] *)
Definition T_DmrData_Rate34LastBlockUnconfirmed : typ := Typ ["dmr_data"; "rate_34_last_block_unconfirmed"]
  (Attr "user_data" ETrue Once None (TBytes (EInt 14))
  (Attr "message_crc32" ETrue Once None (TBytes (EInt 4))
  Nil)).

(** etsi/dmr_data.ksy:43-52 [dmr_data.rate_12_confirmed] *)
Definition T_DmrData_Rate12Confirmed : typ := Typ ["dmr_data"; "rate_12_confirmed"]
  (Attr "data_block_serial_number" ETrue Once None (TBits 7)
  (Attr "crc9" ETrue Once None (TBits 9)
  (Attr "user_data" ETrue Once None (TBytes (EInt 10))
  Nil))).

(** etsi/dmr_data.ksy:53-58 [dmr_data.rate_12_unconfirmed] *)
Definition T_DmrData_Rate12Unconfirmed : typ := Typ ["dmr_data"; "rate_12_unconfirmed"]
  (Attr "user_data" ETrue Once None (TBytes (EInt 12))
  Nil).

(** etsi/dmr_data.ksy:59-70 [dmr_data.rate_12_last_block_confirmed] *)
Definition T_DmrData_Rate12LastBlockConfirmed : typ := Typ ["dmr_data"; "rate_12_last_block_confirmed"]
  (Attr "data_block_serial_number" ETrue Once None (TBits 7)
  (Attr "crc9" ETrue Once None (TBits 9)
  (Attr "user_data" ETrue Once None (TBytes (EInt 6))
  (Attr "message_crc32" ETrue Once None (TBytes (EInt 4))
  Nil)))).

(** etsi/dmr_data.ksy:71-78 [dmr_data.rate_12_last_block_unconfirmed] *)
Definition T_DmrData_Rate12LastBlockUnconfirmed : typ := Typ ["dmr_data"; "rate_12_last_block_unconfirmed"]
  (Attr "user_data" ETrue Once None (TBytes (EInt 8))
  (Attr "message_crc32" ETrue Once None (TBytes (EInt 4))
  Nil)).

(** etsi/dmr_data.ksy:79-86 [dmr_data.udt_last_block] *)
Definition T_DmrData_UdtLastBlock : typ := Typ ["dmr_data"; "udt_last_block"]
  (Attr "user_data" ETrue Once None (TBytes (EInt 10))
  (Attr "message_crc16" ETrue Once None (TBytes (EInt 2))
  Nil)).

(** etsi/dmr_data.ksy:87-96 [dmr_data.rate_1_confirmed] *)
Definition T_DmrData_Rate1Confirmed : typ := Typ ["dmr_data"; "rate_1_confirmed"]
  (Attr "data_block_serial_number" ETrue Once None (TBits 7)
  (Attr "crc9" ETrue Once None (TBits 9)
  (Attr "user_data" ETrue Once None (TBytes (EInt 22))
  Nil))).

(** etsi/dmr_data.ksy:97-102 [dmr_data.rate_1_unconfirmed] *)
Definition T_DmrData_Rate1Unconfirmed : typ := Typ ["dmr_data"; "rate_1_unconfirmed"]
  (Attr "user_data" ETrue Once None (TBytes (EInt 24))
  Nil).

(** etsi/dmr_data.ksy:103-114 [dmr_data.rate_1_last_block_confirmed] *)
Definition T_DmrData_Rate1LastBlockConfirmed : typ := Typ ["dmr_data"; "rate_1_last_block_confirmed"]
  (Attr "data_block_serial_number" ETrue Once None (TBits 7)
  (Attr "crc9" ETrue Once None (TBits 9)
  (Attr "user_data" ETrue Once None (TBytes (EInt 18))
  (Attr "message_crc32" ETrue Once None (TBytes (EInt 4))
  Nil)))).

(** etsi/dmr_data.ksy:115-122 [dmr_data.rate_1_last_block_unconfirmed] *)
Definition T_DmrData_Rate1LastBlockUnconfirmed : typ := Typ ["dmr_data"; "rate_1_last_block_unconfirmed"]
  (Attr "user_data" ETrue Once None (TBytes (EInt 20))
  (Attr "message_crc32" ETrue Once None (TBytes (EInt 4))
  Nil)).

(** etsi/dmr_data.ksy:1-122 [dmr_data] *)
Definition T_DmrData : typ := Typ ["dmr_data"]
  Nil.

(** etsi/dmr_data_header.ksy:93-96 [dmr_data_header.data_header_undefined] *)
Definition T_DmrDataHeader_DataHeaderUndefined : typ := Typ ["dmr_data_header"; "data_header_undefined"]
  (Attr "bytedata" ETrue Once None (TEos)
  Nil).

(** etsi/dmr_data_header.ksy:97-113 [dmr_data_header.data_header_proprietary] *)
Definition T_DmrDataHeader_DataHeaderProprietary : typ := Typ ["dmr_data_header"; "data_header_proprietary"]
  (Attr "sap_identifier" ETrue Once (Some K_DmrDataHeader_SapIdentifiers) (TBits 4)
  (Attr "format" ETrue Once (Some K_DmrDataHeader_DataPacketFormats) (TBits 4)
  (Attr "mfid" ETrue Once None (TBits 8)
  (Attr "proprietary_data" ETrue Once None (TBytes (EInt 8))
  (Attr "crc" ETrue Once None (TBytes (EInt 2))
  Nil))))).

(** etsi/dmr_data_header.ksy:114-156 [dmr_data_header.data_header_udt] *)
Definition T_DmrDataHeader_DataHeaderUdt : typ := Typ ["dmr_data_header"; "data_header_udt"]
  (Attr "llid_destination_is_group" ETrue Once None (TFlag)
  (Attr "response_requested" ETrue Once None (TFlag)
  (Attr "reserved1" ETrue Once None (TBits 2)
  (Attr "format" ETrue Once (Some K_DmrDataHeader_DataPacketFormats) (TBits 4)
  (Attr "sap_identifier" ETrue Once (Some K_DmrDataHeader_SapIdentifiers) (TBits 4)
  (Attr "udt_format" ETrue Once (Some K_DmrDataHeader_UdtFormats) (TBits 4)
  (Attr "llid_destination" ETrue Once None (TBits 24)
  (Attr "llid_source" ETrue Once None (TBits 24)
  (Attr "pad_nibble" ETrue Once None (TBits 5)
  (Attr "reserved2" ETrue Once None (TFlag)
  (Attr "appended_blocks" ETrue Once None (TBits 2)
  (Attr "supplementary_flag" ETrue Once None (TFlag)
  (Attr "protect_flag" ETrue Once None (TFlag)
  (Attr "udt_opcode" ETrue Once (Some K_DmrDataHeader_CsbkMbcUdtOpcodes) (TBits 6)
  (Attr "crc" ETrue Once None (TBytes (EInt 2))
  Nil))))))))))))))).

(** etsi/dmr_data_header.ksy:157-196 [dmr_data_header.data_header_response] *)
Definition T_DmrDataHeader_DataHeaderResponse : typ := Typ ["dmr_data_header"; "data_header_response"]
  (Attr "reserved1" ETrue Once None (TFlag)
  (Attr "response_requested" ETrue Once None (TFlag)
  (Attr "reserved2" ETrue Once None (TBits 2)
  (Attr "format" ETrue Once (Some K_DmrDataHeader_DataPacketFormats) (TBits 4)
  (Attr "sap_identifier" ETrue Once (Some K_DmrDataHeader_SapIdentifiers) (TBits 4)
  (Attr "reserved3" ETrue Once None (TBits 4)
  (Attr "llid_destination" ETrue Once None (TBits 24)
  (Attr "llid_source" ETrue Once None (TBits 24)
  (Attr "full_message_flag" ETrue Once None (TFlag)
  (Attr "blocks_to_follow" ETrue Once None (TBits 7)
  (Attr "response_class" ETrue Once (Some K_DmrDataHeader_ResponsePacketClasses) (TBits 2)
  (Attr "response_type" ETrue Once None (TBits 3)
  (Attr "response_status" ETrue Once None (TBits 3)
  (Attr "crc" ETrue Once None (TBytes (EInt 2))
  Nil)))))))))))))).

(** etsi/dmr_data_header.ksy:197-232 [dmr_data_header.data_header_unconfirmed] *)
Definition T_DmrDataHeader_DataHeaderUnconfirmed : typ := Typ ["dmr_data_header"; "data_header_unconfirmed"]
  (Attr "llid_destination_is_group" ETrue Once None (TFlag)
  (Attr "response_requested" ETrue Once None (TFlag)
  (Attr "reserved1" ETrue Once None (TFlag)
  (Attr "pad_octet_count_msb" ETrue Once None (TFlag)
  (Attr "format" ETrue Once (Some K_DmrDataHeader_DataPacketFormats) (TBits 4)
  (Attr "sap_identifier" ETrue Once (Some K_DmrDataHeader_SapIdentifiers) (TBits 4)
  (Attr "pad_octet_count" ETrue Once None (TBits 4)
  (Attr "llid_destination" ETrue Once None (TBits 24)
  (Attr "llid_source" ETrue Once None (TBits 24)
  (Attr "full_message_flag" ETrue Once None (TFlag)
  (Attr "blocks_to_follow" ETrue Once None (TBits 7)
  (Attr "reserved2" ETrue Once None (TBits 4)
  (Attr "fragment_sequence_number" ETrue Once None (TBits 4)
  (Attr "crc" ETrue Once None (TBytes (EInt 2))
  Nil)))))))))))))).

(** etsi/dmr_data_header.ksy:233-269 [dmr_data_header.data_header_confirmed] *)
Definition T_DmrDataHeader_DataHeaderConfirmed : typ := Typ ["dmr_data_header"; "data_header_confirmed"]
  (Attr "llid_destination_is_group" ETrue Once None (TFlag)
  (Attr "response_requested" ETrue Once None (TFlag)
  (Attr "reserved1" ETrue Once None (TFlag)
  (Attr "pad_octet_count_msb" ETrue Once None (TFlag)
  (Attr "format" ETrue Once (Some K_DmrDataHeader_DataPacketFormats) (TBits 4)
  (Attr "sap_identifier" ETrue Once (Some K_DmrDataHeader_SapIdentifiers) (TBits 4)
  (Attr "pad_octet_count" ETrue Once None (TBits 4)
  (Attr "llid_destination" ETrue Once None (TBits 24)
  (Attr "llid_source" ETrue Once None (TBits 24)
  (Attr "full_message_flag" ETrue Once None (TFlag)
  (Attr "blocks_to_follow" ETrue Once None (TBits 7)
  (Attr "resynchronize_flag" ETrue Once None (TFlag)
  (Attr "send_sequence_number" ETrue Once None (TBits 3)
  (Attr "fragment_sequence_number" ETrue Once None (TBits 4)
  (Attr "crc" ETrue Once None (TBytes (EInt 2))
  Nil))))))))))))))).

(** etsi/dmr_data_header.ksy:270-310 [dmr_data_header.data_header_short_raw] *)
Definition T_DmrDataHeader_DataHeaderShortRaw : typ := Typ ["dmr_data_header"; "data_header_short_raw"]
  (Attr "llid_destination_is_group" ETrue Once None (TFlag)
  (Attr "response_requested" ETrue Once None (TFlag)
  (Attr "appended_blocks_msb" ETrue Once None (TBits 2)
  (Attr "format" ETrue Once (Some K_DmrDataHeader_DataPacketFormats) (TBits 4)
  (Attr "sap_identifier" ETrue Once (Some K_DmrDataHeader_SapIdentifiers) (TBits 4)
  (Attr "appended_blocks_lsb" ETrue Once None (TBits 4)
  (Attr "llid_destination" ETrue Once None (TBits 24)
  (Attr "llid_source" ETrue Once None (TBits 24)
  (Attr "source_port" ETrue Once None (TBits 3)
  (Attr "destination_port" ETrue Once None (TBits 3)
  (Attr "selective_automatic_repeat_request" ETrue Once None (TFlag)
  (Attr "full_message_flag" ETrue Once None (TFlag)
  (Attr "bit_padding" ETrue Once None (TBits 8)
  (Attr "crc" ETrue Once None (TBytes (EInt 2))
  Nil)))))))))))))).

(** etsi/dmr_data_header.ksy:311-350 [dmr_data_header.data_header_short_defined] *)
Definition T_DmrDataHeader_DataHeaderShortDefined : typ := Typ ["dmr_data_header"; "data_header_short_defined"]
  (Attr "llid_destination_is_group" ETrue Once None (TFlag)
  (Attr "response_requested" ETrue Once None (TFlag)
  (Attr "appended_blocks_msb" ETrue Once None (TBits 2)
  (Attr "format" ETrue Once (Some K_DmrDataHeader_DataPacketFormats) (TBits 4)
  (Attr "sap_identifier" ETrue Once (Some K_DmrDataHeader_SapIdentifiers) (TBits 4)
  (Attr "appended_blocks_lsb" ETrue Once None (TBits 4)
  (Attr "llid_destination" ETrue Once None (TBits 24)
  (Attr "llid_source" ETrue Once None (TBits 24)
  (Attr "defined_data" ETrue Once (Some K_DmrDataHeader_DefinedDataFormats) (TBits 6)
  (Attr "selective_automatic_repeat_request" ETrue Once None (TFlag)
  (Attr "full_message_flag" ETrue Once None (TFlag)
  (Attr "bit_padding" ETrue Once None (TBits 8)
  (Attr "crc" ETrue Once None (TBytes (EInt 2))
  Nil))))))))))))).

(** etsi/dmr_data_header.ksy:351-385 [dmr_data_header.data_header_short_status_precoded] *)
Definition T_DmrDataHeader_DataHeaderShortStatusPrecoded : typ := Typ ["dmr_data_header"; "data_header_short_status_precoded"]
  (Attr "llid_destination_is_group" ETrue Once None (TFlag)
  (Attr "response_requested" ETrue Once None (TFlag)
  (Attr "appended_blocks_msb" ETrue Once None (TBits 2)
  (Attr "format" ETrue Once (Some K_DmrDataHeader_DataPacketFormats) (TBits 4)
  (Attr "sap_identifier" ETrue Once (Some K_DmrDataHeader_SapIdentifiers) (TBits 4)
  (Attr "appended_blocks_lsb" ETrue Once None (TBits 4)
  (Attr "llid_destination" ETrue Once None (TBits 24)
  (Attr "llid_source" ETrue Once None (TBits 24)
  (Attr "source_port" ETrue Once None (TBits 3)
  (Attr "destination_port" ETrue Once None (TBits 3)
  (Attr "status_precoded" ETrue Once None (TBits 10)
  (Attr "crc" ETrue Once None (TBytes (EInt 2))
  Nil)))))))))))).

(** etsi/dmr_data_header.ksy:1-408 [dmr_data_header] *)
Definition T_DmrDataHeader : typ := Typ ["dmr_data_header"]
  (Attr "skip4" ETrue Once None (TBits 4)
  (Attr "data_packet_format" ETrue Once (Some K_DmrDataHeader_DataPacketFormats) (TBits 4)
  Nil)).

(** etsi/dmr_ip_udp.ksy:19-52 [dmr_ip_udp.udp_ipv4_compressed_header] *)
Definition T_DmrIpUdp_UdpIpv4CompressedHeader : typ := Typ ["dmr_ip_udp"; "udp_ipv4_compressed_header"]
  (Attr "ipv4_identification" ETrue Once None (TBytes (EInt 2))
  (Attr "source_ip_address_id" ETrue Once (Some K_DmrIpUdp_SourceIpAddressIds) (TBits 4)
  (Attr "destination_ip_address_id" ETrue Once (Some K_DmrIpUdp_DestinationIpAddressIds) (TBits 4)
  (Attr "header_compression_opcode_msb" ETrue Once None (TFlag)
  (Attr "udp_source_port_id" ETrue Once (Some K_DmrIpUdp_UdpPortIds) (TBits 7)
  (Attr "header_compression_opcode_lsb" ETrue Once None (TFlag)
  (Attr "udp_destination_port_id" ETrue Once (Some K_DmrIpUdp_UdpPortIds) (TBits 7)
  (Attr "udp_source_port" (EIs (EAttr Self "udp_source_port_id") K_DmrIpUdp_UdpPortIds "present_in_extended_header") Once None (TBytes (EInt 2))
  (Attr "udp_destination_port" (EIs (EAttr Self "udp_destination_port_id") K_DmrIpUdp_UdpPortIds "present_in_extended_header") Once None (TBytes (EInt 2))
  (Attr "user_data" ETrue Once None (TEos)
  Nil)))))))))).

(** etsi/dmr_ip_udp.ksy:1-52 [dmr_ip_udp] *)
Definition T_DmrIpUdp : typ := Typ ["dmr_ip_udp"]
  Nil.

(** etsi/full_link_control.ksy:39-46 [full_link_control.group_voice_channel_user] *)
Definition T_FullLinkControl_GroupVoiceChannelUser : typ := Typ ["full_link_control"; "group_voice_channel_user"]
  (Attr "service_options" ETrue Once None (TBits 8)
  (Attr "group_address" ETrue Once None (TBits 24)
  (Attr "source_address" ETrue Once None (TBits 24)
  Nil))).

(** etsi/full_link_control.ksy:47-54 [full_link_control.unit_to_unit_voice_channel_user] *)
Definition T_FullLinkControl_UnitToUnitVoiceChannelUser : typ := Typ ["full_link_control"; "unit_to_unit_voice_channel_user"]
  (Attr "service_options" ETrue Once None (TBits 8)
  (Attr "target_address" ETrue Once None (TBits 24)
  (Attr "source_address" ETrue Once None (TBits 24)
  Nil))).

(** etsi/full_link_control.ksy:55-65 [full_link_control.gps_info_lc_pdu] *)
Definition T_FullLinkControl_GpsInfoLcPdu : typ := Typ ["full_link_control"; "gps_info_lc_pdu"]
  (Attr "reserved" ETrue Once None (TBits 4)
  (Attr "position_error" ETrue Once (Some K_FullLinkControl_PositionErrors) (TBits 3)
  (Attr "longitude" ETrue Once None (TBits 25)
  (Attr "latitude" ETrue Once None (TBits 24)
  Nil)))).

(** etsi/full_link_control.ksy:66-75 [full_link_control.talker_alias_header] *)
Definition T_FullLinkControl_TalkerAliasHeader : typ := Typ ["full_link_control"; "talker_alias_header"]
  (Attr "talker_alias_data_format" ETrue Once (Some K_FullLinkControl_TalkerDataFormats) (TBits 2)
  (Attr "talker_alias_data_length" ETrue Once None (TBits 5)
  (Attr "talker_alias_data" ETrue Once None (TBits 49)
  Nil))).

(** etsi/full_link_control.ksy:76-80 [full_link_control.talker_alias_continuation] *)
Definition T_FullLinkControl_TalkerAliasContinuation : typ := Typ ["full_link_control"; "talker_alias_continuation"]
  (Attr "talker_alias_data" ETrue Once None (TBits 56)
  Nil).

(** etsi/full_link_control.ksy:1-111 [full_link_control] *)
Definition T_FullLinkControl : typ := Typ ["full_link_control"]
  (Attr "protect_flag" ETrue Once None (TFlag)
  (Attr "reserved" ETrue Once None (TFlag)
  (Attr "full_link_control_opcode" ETrue Once (Some K_FullLinkControl_Flcos) (TBits 6)
  (Attr "feature_set_id" ETrue Once (Some K_FullLinkControl_FeatureSetIds) (TBits 8)
  (Attr "specific_data" ETrue Once None (TSwitch (EAttr Self "full_link_control_opcode")
      (CCons (KMember K_FullLinkControl_Flcos "group_voice") (TLocal T_FullLinkControl_GroupVoiceChannelUser)
      (CCons (KMember K_FullLinkControl_Flcos "unit_to_unit_voice") (TLocal T_FullLinkControl_UnitToUnitVoiceChannelUser)
      (CCons (KMember K_FullLinkControl_Flcos "gps_info") (TLocal T_FullLinkControl_GpsInfoLcPdu)
      (CCons (KMember K_FullLinkControl_Flcos "talker_alias_header") (TLocal T_FullLinkControl_TalkerAliasHeader)
      (CCons (KMember K_FullLinkControl_Flcos "talker_alias_block1") (TLocal T_FullLinkControl_TalkerAliasContinuation)
      (CCons (KMember K_FullLinkControl_Flcos "talker_alias_block2") (TLocal T_FullLinkControl_TalkerAliasContinuation)
      (CCons (KMember K_FullLinkControl_Flcos "talker_alias_block3") (TLocal T_FullLinkControl_TalkerAliasContinuation)
      CNil))))))))
  (Attr "crc_checksum" (EBin Ge (EBin Sub ESize EPos) (EInt 3)) Once None (TBytes (EInt 3))
  (Attr "cs5_checksum" (EBin Le ESize (EInt 10)) Once None (TBits 5)
  Nil))))))).

(** homebrew/homebrew2015.ksy:19-49 [homebrew2015.type_dmr_data] *)
Definition T_Homebrew2015_TypeDmrData : typ := Typ ["homebrew2015"; "type_dmr_data"]
  (Attr "sequence_no" ETrue Once None (TInt U1)
  (Attr "source_id" ETrue Once None (TBits 24)
  (Attr "target_id" ETrue Once None (TBits 24)
  (Attr "repeater_id" ETrue Once None (TInt U4be)
  (Attr "slot_no" ETrue Once (Some K_Homebrew2015_Timeslots) (TBits 1)
  (Attr "call_type" ETrue Once (Some K_Homebrew2015_CallTypes) (TBits 1)
  (Attr "frame_type" ETrue Once (Some K_Homebrew2015_FrameTypes) (TBits 2)
  (Attr "data_type" ETrue Once None (TBits 4)
  (Attr "stream_id" ETrue Once None (TInt U4be)
  (Attr "dmr_data" ETrue Once None (TBytes (EInt 33))
  (Attr "bit_error_rate" (ENot EEof) Once None (TInt U1)
  (Attr "rssi" (ENot EEof) Once None (TInt U1)
  Nil)))))))))))).

(** homebrew/homebrew2015.ksy:50-53 [homebrew2015.type_repeater_login_request] *)
Definition T_Homebrew2015_TypeRepeaterLoginRequest : typ := Typ ["homebrew2015"; "type_repeater_login_request"]
  (Attr "repeater_id" ETrue Once None (TInt U4be)
  Nil).

(** homebrew/homebrew2015.ksy:54-59 [homebrew2015.type_master_ping] *)
Definition T_Homebrew2015_TypeMasterPing : typ := Typ ["homebrew2015"; "type_master_ping"]
  (Attr "magic" ETrue Once None (TContents (B [73; 78; 71]))
  (Attr "repeater_id" ETrue Once None (TInt U4be)
  Nil)).

(** homebrew/homebrew2015.ksy:60-65 [homebrew2015.type_repeater_pong] *)
Definition T_Homebrew2015_TypeRepeaterPong : typ := Typ ["homebrew2015"; "type_repeater_pong"]
  (Attr "magic" ETrue Once None (TContents (B [79; 78; 71]))
  (Attr "repeater_id" ETrue Once None (TInt U4be)
  Nil)).

(** homebrew/homebrew2015.ksy:66-71 [homebrew2015.type_master_closing] *)
Definition T_Homebrew2015_TypeMasterClosing : typ := Typ ["homebrew2015"; "type_master_closing"]
  (Attr "magic" ETrue Once None (TContents (B [76]))
  (Attr "repeater_id" ETrue Once None (TInt U4be)
  Nil)).

(** homebrew/homebrew2015.ksy:72-77 [homebrew2015.type_master_not_accept] *)
Definition T_Homebrew2015_TypeMasterNotAccept : typ := Typ ["homebrew2015"; "type_master_not_accept"]
  (Attr "magic" ETrue Once None (TContents (B [65; 75]))
  (Attr "repeater_id" ETrue Once None (TInt U4be)
  Nil)).

(** homebrew/homebrew2015.ksy:78-86 [homebrew2015.type_master_repeater_ack] *)
Definition T_Homebrew2015_TypeMasterRepeaterAck : typ := Typ ["homebrew2015"; "type_master_repeater_ack"]
  (Attr "magictype_master_repeater_ack" ETrue Once None (TContents (B [67; 75]))
  (Attr "repeater_id" ETrue Once None (TInt U4be)
  (Attr "random_number" (ENot EEof) Once None (TInt U4be)
  Nil))).

(** homebrew/homebrew2015.ksy:87-92 [homebrew2015.type_repeater_login_response] *)
Definition T_Homebrew2015_TypeRepeaterLoginResponse : typ := Typ ["homebrew2015"; "type_repeater_login_response"]
  (Attr "repeater_id" ETrue Once None (TInt U4be)
  (Attr "sha256" ETrue Once None (TBytes (EInt 32))
  Nil)).

(** homebrew/homebrew2015.ksy:177 instance [homebrew2015.fifth_letter] *)
Definition I_Homebrew2015_fifth_letter : inst :=
  IAt "fifth_letter" ETrue (EInt 4) None (TStr ASCII (EInt 1)).

(** homebrew/homebrew2015.ksy:101-106 [homebrew2015.type_repeater_closing] *)
Definition T_Homebrew2015_TypeRepeaterClosing : typ := Typ ["homebrew2015"; "type_repeater_closing"]
  (Attr "magic" ETrue Once None (TContents (B [76]))
  (Attr "repeater_id" ETrue Once None (TInt U4be)
  Nil)).

(** homebrew/homebrew2015.ksy:107-166 [homebrew2015.type_repeater_configuration] *)
Definition T_Homebrew2015_TypeRepeaterConfiguration : typ := Typ ["homebrew2015"; "type_repeater_configuration"]
  (Attr "repeater_id" ETrue Once None (TInt U4be)
  (Attr "call_sign" ETrue Once None (TStr ASCII (EInt 8))
  (Attr "rx_freq" ETrue Once None (TStr ASCII (EInt 9))
  (Attr "tx_freq" ETrue Once None (TStr ASCII (EInt 9))
  (Attr "tx_power" ETrue Once None (TStr ASCII (EInt 2))
  (Attr "color_code" ETrue Once None (TStr ASCII (EInt 2))
  (Attr "latitude" ETrue Once None (TStr ASCII (EInt 8))
  (Attr "longitude" ETrue Once None (TStr ASCII (EInt 9))
  (Attr "antenna_height_above_ground" ETrue Once None (TStr ASCII (EInt 3))
  (Attr "location" ETrue Once None (TStr ASCII (EInt 20))
  (Attr "description" ETrue Once None (TStr ASCII (EInt 20))
  (Attr "url" ETrue Once None (TStr ASCII (EInt 124))
  (Attr "software_id" ETrue Once None (TStr ASCII (EInt 40))
  (Attr "package_id" ETrue Once None (TStr ASCII (EInt 40))
  (Attr "unparsed_data" ETrue Once None (TStrEos ASCII)
  Nil))))))))))))))).

(** homebrew/homebrew2015.ksy:93-100 [homebrew2015.type_repeater_configuration_or_closing] *)
Definition T_Homebrew2015_TypeRepeaterConfigurationOrClosing : typ := Typ ["homebrew2015"; "type_repeater_configuration_or_closing"]
  (Attr "data" ETrue Once None (TSwitch (EInst Root I_Homebrew2015_fifth_letter)
      (CCons (KText "L") (TLocal T_Homebrew2015_TypeRepeaterClosing)
      (CDefault (TLocal T_Homebrew2015_TypeRepeaterConfiguration))))
  Nil).

(** homebrew/homebrew2015.ksy:167-175 [homebrew2015.type_repeater_options] *)
Definition T_Homebrew2015_TypeRepeaterOptions : typ := Typ ["homebrew2015"; "type_repeater_options"]
  (Attr "repeater_id" ETrue Once None (TInt U4be)
  (Attr "options" ETrue Once None (TStrEos ASCII)
  Nil)).

(** homebrew/homebrew2015.ksy:1-200 [homebrew2015] *)
Definition T_Homebrew2015 : typ := Typ ["homebrew2015"]
  (Attr "command_prefix" ETrue Once None (TStr UTF8 (EInt 4))
  (Attr "command_data" ETrue Once None (TSwitch (EAttr Self "command_prefix")
      (CCons (KText "RPTL") (TLocal T_Homebrew2015_TypeRepeaterLoginRequest)
      (CCons (KText "MSTN") (TLocal T_Homebrew2015_TypeMasterNotAccept)
      (CCons (KText "MSTA") (TLocal T_Homebrew2015_TypeMasterRepeaterAck)
      (CCons (KText "RPTK") (TLocal T_Homebrew2015_TypeRepeaterLoginResponse)
      (CCons (KText "MSTP") (TLocal T_Homebrew2015_TypeMasterPing)
      (CCons (KText "RPTP") (TLocal T_Homebrew2015_TypeRepeaterPong)
      (CCons (KText "RPTC") (TLocal T_Homebrew2015_TypeRepeaterConfigurationOrClosing)
      (CCons (KText "MSTC") (TLocal T_Homebrew2015_TypeMasterClosing)
      (CCons (KText "DMRD") (TLocal T_Homebrew2015_TypeDmrData)
      CNil))))))))))
  Nil)).

(** homebrew/mmdvm2020.ksy:33-36 [mmdvm2020.type_unknown] *)
Definition T_Mmdvm2020_TypeUnknown : typ := Typ ["mmdvm2020"; "type_unknown"]
  (Attr "unknown_data" ETrue Once None (TEos)
  Nil).

(** homebrew/mmdvm2020.ksy:37-47 [mmdvm2020.type_talker_alias] *)
Definition T_Mmdvm2020_TypeTalkerAlias : typ := Typ ["mmdvm2020"; "type_talker_alias"]
  (Attr "radio_id" ETrue Once None (TBits 24)
  (Attr "talker_alias_type" ETrue Once (Some K_Mmdvm2020_TalkerAliasTypes) (TInt U1)
  (Attr "talker_alias" ETrue Once None (TStr ASCII (EInt 8))
  Nil))).

(** homebrew/mmdvm2020.ksy:48-78 [mmdvm2020.type_dmr_data] *)
Definition T_Mmdvm2020_TypeDmrData : typ := Typ ["mmdvm2020"; "type_dmr_data"]
  (Attr "sequence_no" ETrue Once None (TInt U1)
  (Attr "source_id" ETrue Once None (TBits 24)
  (Attr "target_id" ETrue Once None (TBits 24)
  (Attr "repeater_id" ETrue Once None (TInt U4be)
  (Attr "slot_no" ETrue Once (Some K_Mmdvm2020_Timeslots) (TBits 1)
  (Attr "call_type" ETrue Once (Some K_Mmdvm2020_CallTypes) (TBits 1)
  (Attr "frame_type" ETrue Once (Some K_Mmdvm2020_FrameTypes) (TBits 2)
  (Attr "data_type" ETrue Once None (TBits 4)
  (Attr "stream_id" ETrue Once None (TInt U4be)
  (Attr "dmr_data" ETrue Once None (TBytes (EInt 33))
  (Attr "bit_error_rate" (ENot EEof) Once None (TInt U1)
  (Attr "rssi" (ENot EEof) Once None (TInt U1)
  Nil)))))))))))).

(** homebrew/mmdvm2020.ksy:79-82 [mmdvm2020.type_repeater_login_request] *)
Definition T_Mmdvm2020_TypeRepeaterLoginRequest : typ := Typ ["mmdvm2020"; "type_repeater_login_request"]
  (Attr "repeater_id" ETrue Once None (TInt U4be)
  Nil).

(** homebrew/mmdvm2020.ksy:83-88 [mmdvm2020.type_repeater_ping] *)
Definition T_Mmdvm2020_TypeRepeaterPing : typ := Typ ["mmdvm2020"; "type_repeater_ping"]
  (Attr "magic" ETrue Once None (TContents (B [73; 78; 71]))
  (Attr "repeater_id" ETrue Once None (TInt U4be)
  Nil)).

(** homebrew/mmdvm2020.ksy:89-94 [mmdvm2020.type_master_pong] *)
Definition T_Mmdvm2020_TypeMasterPong : typ := Typ ["mmdvm2020"; "type_master_pong"]
  (Attr "magic" ETrue Once None (TContents (B [79; 78; 71]))
  (Attr "repeater_id" ETrue Once None (TInt U4be)
  Nil)).

(** homebrew/mmdvm2020.ksy:95-100 [mmdvm2020.type_master_closing] *)
Definition T_Mmdvm2020_TypeMasterClosing : typ := Typ ["mmdvm2020"; "type_master_closing"]
  (Attr "magic" ETrue Once None (TContents (B [76]))
  (Attr "repeater_id" ETrue Once None (TInt U4be)
  Nil)).

(** homebrew/mmdvm2020.ksy:101-106 [mmdvm2020.type_master_not_accept] *)
Definition T_Mmdvm2020_TypeMasterNotAccept : typ := Typ ["mmdvm2020"; "type_master_not_accept"]
  (Attr "magic" ETrue Once None (TContents (B [65; 75]))
  (Attr "repeater_id" ETrue Once None (TInt U4be)
  Nil)).

(** homebrew/mmdvm2020.ksy:107-112 [mmdvm2020.type_master_repeater_ack] *)
Definition T_Mmdvm2020_TypeMasterRepeaterAck : typ := Typ ["mmdvm2020"; "type_master_repeater_ack"]
  (Attr "magic" ETrue Once None (TContents (B [67; 75]))
  (Attr "repeater_id_or_challenge" ETrue Once None (TInt U4be)
  Nil)).

(** homebrew/mmdvm2020.ksy:113-118 [mmdvm2020.type_repeater_login_response] *)
Definition T_Mmdvm2020_TypeRepeaterLoginResponse : typ := Typ ["mmdvm2020"; "type_repeater_login_response"]
  (Attr "repeater_id" ETrue Once None (TInt U4be)
  (Attr "sha256" ETrue Once None (TBytes (EInt 32))
  Nil)).

(** homebrew/mmdvm2020.ksy:224 instance [mmdvm2020.fifth_letter] *)
Definition I_Mmdvm2020_fifth_letter : inst :=
  IAt "fifth_letter" ETrue (EInt 4) None (TStr ASCII (EInt 1)).

(** homebrew/mmdvm2020.ksy:127-132 [mmdvm2020.type_repeater_closing] *)
Definition T_Mmdvm2020_TypeRepeaterClosing : typ := Typ ["mmdvm2020"; "type_repeater_closing"]
  (Attr "magic" ETrue Once None (TContents (B [76]))
  (Attr "repeater_id" ETrue Once None (TInt U4be)
  Nil)).

(** homebrew/mmdvm2020.ksy:133-197 [mmdvm2020.type_repeater_configuration] *)
Definition T_Mmdvm2020_TypeRepeaterConfiguration : typ := Typ ["mmdvm2020"; "type_repeater_configuration"]
  (Attr "repeater_id" ETrue Once None (TInt U4be)
  (Attr "call_sign" ETrue Once None (TStr ASCII (EInt 8))
  (Attr "rx_freq" ETrue Once None (TStr ASCII (EInt 9))
  (Attr "tx_freq" ETrue Once None (TStr ASCII (EInt 9))
  (Attr "tx_power" ETrue Once None (TStr ASCII (EInt 2))
  (Attr "color_code" ETrue Once None (TStr ASCII (EInt 2))
  (Attr "latitude" ETrue Once None (TStr ASCII (EInt 8))
  (Attr "longitude" ETrue Once None (TStr ASCII (EInt 9))
  (Attr "antenna_height_above_ground" ETrue Once None (TStr ASCII (EInt 3))
  (Attr "location" ETrue Once None (TStr ASCII (EInt 20))
  (Attr "description" ETrue Once None (TStr ASCII (EInt 19))
  (Attr "slots" ETrue Once None (TStr ASCII (EInt 1))
  (Attr "url" ETrue Once None (TStr ASCII (EInt 124))
  (Attr "software_id" ETrue Once None (TStr ASCII (EInt 40))
  (Attr "package_id" ETrue Once None (TStr ASCII (EInt 40))
  (Attr "unparsed_data" ETrue Once None (TStrEos ASCII)
  Nil)))))))))))))))).

(** homebrew/mmdvm2020.ksy:119-126 [mmdvm2020.type_repeater_configuration_or_closing] *)
Definition T_Mmdvm2020_TypeRepeaterConfigurationOrClosing : typ := Typ ["mmdvm2020"; "type_repeater_configuration_or_closing"]
  (Attr "data" ETrue Once None (TSwitch (EInst Root I_Mmdvm2020_fifth_letter)
      (CCons (KText "L") (TLocal T_Mmdvm2020_TypeRepeaterClosing)
      (CDefault (TLocal T_Mmdvm2020_TypeRepeaterConfiguration))))
  Nil).

(** homebrew/mmdvm2020.ksy:198-206 [mmdvm2020.type_repeater_options] *)
Definition T_Mmdvm2020_TypeRepeaterOptions : typ := Typ ["mmdvm2020"; "type_repeater_options"]
  (Attr "repeater_id" ETrue Once None (TInt U4be)
  (Attr "options" ETrue Once None (TStrEos ASCII)
  Nil)).

(** homebrew/mmdvm2020.ksy:207-220 [mmdvm2020.type_radio_position] *)
Definition T_Mmdvm2020_TypeRadioPosition : typ := Typ ["mmdvm2020"; "type_radio_position"]
  (Attr "radio_id" ETrue Once None (TBits 24)
  (Attr "reserved" ETrue Once None (TBits 4)
  (Attr "position_error" ETrue Once (Some K_Mmdvm2020_PositionErrors) (TBits 3)
  (Attr "longitude" ETrue Once None (TBits 25)
  (Attr "latitude" ETrue Once None (TBits 24)
  Nil))))).

(** homebrew/mmdvm2020.ksy:221-222 [mmdvm2020.type_repeater_beacon] *)
Definition T_Mmdvm2020_TypeRepeaterBeacon : typ := Typ ["mmdvm2020"; "type_repeater_beacon"]
  Nil.

(** homebrew/mmdvm2020.ksy:1-251 [mmdvm2020] *)
Definition T_Mmdvm2020 : typ := Typ ["mmdvm2020"]
  (Attr "command_prefix" ETrue Once None (TStr ASCII (EInt 4))
  (Attr "command_data" ETrue Once None (TSwitch (EAttr Self "command_prefix")
      (CCons (KText "DMRA") (TLocal T_Mmdvm2020_TypeTalkerAlias)
      (CCons (KText "DMRG") (TLocal T_Mmdvm2020_TypeRadioPosition)
      (CCons (KText "DMRD") (TLocal T_Mmdvm2020_TypeDmrData)
      (CCons (KText "MSTC") (TLocal T_Mmdvm2020_TypeMasterClosing)
      (CCons (KText "MSTP") (TLocal T_Mmdvm2020_TypeMasterPong)
      (CCons (KText "MSTN") (TLocal T_Mmdvm2020_TypeMasterNotAccept)
      (CCons (KText "RPTP") (TLocal T_Mmdvm2020_TypeRepeaterPing)
      (CCons (KText "RPTO") (TLocal T_Mmdvm2020_TypeRepeaterOptions)
      (CCons (KText "RPTL") (TLocal T_Mmdvm2020_TypeRepeaterLoginRequest)
      (CCons (KText "RPTA") (TLocal T_Mmdvm2020_TypeMasterRepeaterAck)
      (CCons (KText "RPTK") (TLocal T_Mmdvm2020_TypeRepeaterLoginResponse)
      (CCons (KText "RPTC") (TLocal T_Mmdvm2020_TypeRepeaterConfigurationOrClosing)
      (CCons (KText "RPTS") (TLocal T_Mmdvm2020_TypeRepeaterBeacon)
      CNil))))))))))))))
  Nil)).

(** hytera/radio_ip.ksy:1-20 [radio_ip] *)
Definition T_RadioIp : typ := Typ ["radio_ip"]
  (Attr "subnet" ETrue Once None (TInt U1)
  (Attr "radio_id_1" ETrue Once None (TInt U1)
  (Attr "radio_id_2" ETrue Once None (TInt U1)
  (Attr "radio_id_3" ETrue Once None (TInt U1)
  Nil)))).

(** hytera/data_delivery_states.ksy:1-38 [data_delivery_states] *)
Definition T_DataDeliveryStates : typ := Typ ["data_delivery_states"]
  (Attr "reserved" ETrue Once None (TBytes (EInt 1))
  (Attr "state_type" ETrue Once (Some K_DataDeliveryStates_StateTypes) (TInt U1)
  (Attr "message_length" ETrue Once None (TInt U2be)
  (Attr "radio_ip" ETrue Once None (TImported T_RadioIp)
  (Attr "protocol_opcode" ETrue Once None (TInt U2be)
  (Attr "result" ETrue Once (Some K_DataDeliveryStates_Results) (TInt U1)
  Nil)))))).

(** hytera/data_transmit_protocol.ksy:19-32 [data_transmit_protocol.dtp_request] *)
Definition T_DataTransmitProtocol_DtpRequest : typ := Typ ["data_transmit_protocol"; "dtp_request"]
  (Attr "destination_ip" ETrue Once None (TImported T_RadioIp)
  (Attr "source_ip" ETrue Once None (TImported T_RadioIp)
  (Attr "file_size" ETrue Once None (TInt U2be)
  (Attr "file_name" ETrue Once None (TStr UTF16LE (EBin Sub (EAttr Parent "message_length") (EInt 10)))
  Nil)))).

(** hytera/data_transmit_protocol.ksy:33-41 [data_transmit_protocol.dtp_answer] *)
Definition T_DataTransmitProtocol_DtpAnswer : typ := Typ ["data_transmit_protocol"; "dtp_answer"]
  (Attr "destination_ip" ETrue Once None (TImported T_RadioIp)
  (Attr "source_ip" ETrue Once None (TImported T_RadioIp)
  (Attr "result" ETrue Once (Some K_DataTransmitProtocol_Results) (TInt U1)
  Nil))).

(** hytera/data_transmit_protocol.ksy:42-53 [data_transmit_protocol.data_slice_transmit] *)
Definition T_DataTransmitProtocol_DataSliceTransmit : typ := Typ ["data_transmit_protocol"; "data_slice_transmit"]
  (Attr "destination_ip" ETrue Once None (TImported T_RadioIp)
  (Attr "source_ip" ETrue Once None (TImported T_RadioIp)
  (Attr "block_number" ETrue Once None (TInt U2be)
  (Attr "file_data" ETrue Once None (TBytes (EBin Sub (EAttr Parent "message_length") (EInt 10)))
  Nil)))).

(** hytera/data_transmit_protocol.ksy:54-66 [data_transmit_protocol.data_slice_answer] *)
Definition T_DataTransmitProtocol_DataSliceAnswer : typ := Typ ["data_transmit_protocol"; "data_slice_answer"]
  (Attr "destination_ip" ETrue Once None (TImported T_RadioIp)
  (Attr "source_ip" ETrue Once None (TImported T_RadioIp)
  (Attr "block_number" ETrue Once None (TInt U2be)
  (Attr "result" ETrue Once (Some K_DataTransmitProtocol_Results) (TInt U1)
  Nil)))).

(** hytera/data_transmit_protocol.ksy:67-75 [data_transmit_protocol.last_data_slice] *)
Definition T_DataTransmitProtocol_LastDataSlice : typ := Typ ["data_transmit_protocol"; "last_data_slice"]
  (Attr "destination_ip" ETrue Once None (TImported T_RadioIp)
  (Attr "source_ip" ETrue Once None (TImported T_RadioIp)
  Nil)).

(** hytera/data_transmit_protocol.ksy:76-86 [data_transmit_protocol.last_data_slice_answer] *)
Definition T_DataTransmitProtocol_LastDataSliceAnswer : typ := Typ ["data_transmit_protocol"; "last_data_slice_answer"]
  (Attr "destination_ip" ETrue Once None (TImported T_RadioIp)
  (Attr "source_ip" ETrue Once None (TImported T_RadioIp)
  (Attr "result" ETrue Once (Some K_DataTransmitProtocol_Results) (TInt U1)
  Nil))).

(** hytera/data_transmit_protocol.ksy:1-108 [data_transmit_protocol] *)
Definition T_DataTransmitProtocol : typ := Typ ["data_transmit_protocol"]
  (Attr "service_type" ETrue Once (Some K_DataTransmitProtocol_ServiceTypes) (TInt U1)
  (Attr "service_specific_type" ETrue Once (Some K_DataTransmitProtocol_ServiceSpecificTypes) (TInt U1)
  (Attr "message_length" ETrue Once None (TInt U2be)
  (Attr "data" ETrue Once None (TSwitch (EAttr Self "service_specific_type")
      (CCons (KMember K_DataTransmitProtocol_ServiceSpecificTypes "dtp_request") (TLocal T_DataTransmitProtocol_DtpRequest)
      (CCons (KMember K_DataTransmitProtocol_ServiceSpecificTypes "dtp_answer") (TLocal T_DataTransmitProtocol_DtpAnswer)
      (CCons (KMember K_DataTransmitProtocol_ServiceSpecificTypes "data_slice_transmit") (TLocal T_DataTransmitProtocol_DataSliceTransmit)
      (CCons (KMember K_DataTransmitProtocol_ServiceSpecificTypes "data_slice_answer") (TLocal T_DataTransmitProtocol_DataSliceAnswer)
      (CCons (KMember K_DataTransmitProtocol_ServiceSpecificTypes "last_data_slice") (TLocal T_DataTransmitProtocol_LastDataSlice)
      (CCons (KMember K_DataTransmitProtocol_ServiceSpecificTypes "last_data_slice_answer") (TLocal T_DataTransmitProtocol_LastDataSliceAnswer)
      CNil)))))))
  Nil)))).

(** hytera/datetimestring.ksy:1-9 [datetimestring] *)
Definition T_Datetimestring : typ := Typ ["datetimestring"]
  (Attr "datetime" ETrue Once None (TStr UTF8 (EInt 14))
  Nil).

(** hytera/gpsdata.ksy:1-36 [gpsdata] *)
Definition T_Gpsdata : typ := Typ ["gpsdata"]
  (Attr "gps_status" ETrue Once None (TBytes (EInt 1))
  (Attr "gps_time" ETrue Once None (TBytes (EInt 6))
  (Attr "gps_date" ETrue Once None (TBytes (EInt 6))
  (Attr "north_south" ETrue Once None (TBytes (EInt 1))
  (Attr "latitude" ETrue Once None (TBytes (EInt 9))
  (Attr "east_west" ETrue Once None (TBytes (EInt 1))
  (Attr "longitude" ETrue Once None (TBytes (EInt 10))
  (Attr "speed" ETrue Once None (TBytes (EInt 3))
  (Attr "direction" ETrue Once None (TBytes (EInt 3))
  Nil))))))))).

(** hytera/hytera_dmr_application_protocol.ksy:21-25 [hytera_dmr_application_protocol.undefined_protocol] *)
Definition T_HyteraDmrApplicationProtocol_UndefinedProtocol : typ := Typ ["hytera_dmr_application_protocol"; "undefined_protocol"]
  (Attr "data" ETrue Once None (TEos)
  Nil).

(** hytera/location_protocol.ksy:257-268 [location_protocol.condition_quick_gps_answer] *)
Definition T_LocationProtocol_ConditionQuickGpsAnswer : typ := Typ ["location_protocol"; "condition_quick_gps_answer"]
  (Attr "request_id" ETrue Once None (TInt U4be)
  (Attr "radio_ip" ETrue Once None (TImported T_RadioIp)
  (Attr "cmd_type" ETrue Once (Some K_LocationProtocol_CmdTypes) (TInt U1)
  (Attr "result" ETrue Once (Some K_LocationProtocol_ResultCodes) (TInt U2be)
  Nil)))).

(** hytera/intervalstring.ksy:1-10 [intervalstring] *)
Definition T_Intervalstring : typ := Typ ["intervalstring"]
  (Attr "interval" ETrue Once None (TStr UTF8 (EInt 8))
  Nil).

(** hytera/location_protocol.ksy:241-256 [location_protocol.quick_gps_payload] *)
Definition T_LocationProtocol_QuickGpsPayload : typ := Typ ["location_protocol"; "quick_gps_payload"]
  (Attr "start_time" ETrue Once None (TImported T_Datetimestring)
  (Attr "stop_time" ETrue Once None (TImported T_Datetimestring)
  (Attr "interval" ETrue Once None (TImported T_Intervalstring)
  (Attr "send_step" ETrue Once None (TInt U2be)
  (Attr "channel_use_percentage" ETrue Once None (TInt U1)
  (Attr "send_order" ETrue Once None (TInt U2be)
  Nil)))))).

(** hytera/location_protocol.ksy:229-240 [location_protocol.condition_quick_gps_request] *)
Definition T_LocationProtocol_ConditionQuickGpsRequest : typ := Typ ["location_protocol"; "condition_quick_gps_request"]
  (Attr "request_id" ETrue Once None (TInt U4be)
  (Attr "radio_ip" ETrue Once None (TImported T_RadioIp)
  (Attr "cmd_type" ETrue Once (Some K_LocationProtocol_CmdTypes) (TInt U1)
  (Attr "quick_gps_payload" (EIs (EAttr Self "cmd_type") K_LocationProtocol_CmdTypes "start_request") Once None (TLocal T_LocationProtocol_QuickGpsPayload)
  Nil)))).

(** hytera/location_protocol.ksy:207-214 [location_protocol.condition_report] *)
Definition T_LocationProtocol_ConditionReport : typ := Typ ["location_protocol"; "condition_report"]
  (Attr "request_id" ETrue Once None (TInt U4be)
  (Attr "radio_ip" ETrue Once None (TImported T_RadioIp)
  (Attr "gpsdata" ETrue Once None (TImported T_Gpsdata)
  Nil))).

(** hytera/location_protocol.ksy:195-206 [location_protocol.condition_report_answer] *)
Definition T_LocationProtocol_ConditionReportAnswer : typ := Typ ["location_protocol"; "condition_report_answer"]
  (Attr "request_id" ETrue Once None (TInt U4be)
  (Attr "radio_ip" ETrue Once None (TImported T_RadioIp)
  (Attr "trigger_type" ETrue Once (Some K_LocationProtocol_TriggerTypes) (TInt U1)
  (Attr "result" ETrue Once (Some K_LocationProtocol_ResultCodes) (TInt U2be)
  Nil)))).

(** hytera/location_protocol.ksy:177-194 [location_protocol.condition_report_request] *)
Definition T_LocationProtocol_ConditionReportRequest : typ := Typ ["location_protocol"; "condition_report_request"]
  (Attr "request_id" ETrue Once None (TInt U4be)
  (Attr "radio_ip" ETrue Once None (TImported T_RadioIp)
  (Attr "trigger_type" ETrue Once None (TInt U1)
  (Attr "distance" ETrue Once None (TInt U4be)
  (Attr "start_time" ETrue Once None (TImported T_Datetimestring)
  (Attr "stop_time" ETrue Once None (TImported T_Datetimestring)
  (Attr "interval" ETrue Once None (TImported T_Intervalstring)
  (Attr "max_interval" ETrue Once None (TImported T_Intervalstring)
  Nil)))))))).

(** hytera/location_protocol.ksy:215-228 [location_protocol.condition_report_with_rssi] *)
Definition T_LocationProtocol_ConditionReportWithRssi : typ := Typ ["location_protocol"; "condition_report_with_rssi"]
  (Attr "request_id" ETrue Once None (TInt U4be)
  (Attr "radio_ip" ETrue Once None (TImported T_RadioIp)
  (Attr "result" ETrue Once (Some K_LocationProtocol_ResultCodes) (TInt U2be)
  (Attr "gpsdata" ETrue Once None (TImported T_Gpsdata)
  (Attr "rssi_value" ETrue Once None (TInt S2be)
  Nil))))).

(** hytera/location_protocol.ksy:123-130 [location_protocol.emergency_report] *)
Definition T_LocationProtocol_EmergencyReport : typ := Typ ["location_protocol"; "emergency_report"]
  (Attr "radio_ip" ETrue Once None (TImported T_RadioIp)
  (Attr "emergency_type" ETrue Once None (TInt U1)
  (Attr "gpsdata" ETrue Once None (TImported T_Gpsdata)
  Nil))).

(** hytera/location_protocol.ksy:114-122 [location_protocol.emergency_report_stop_answer] *)
Definition T_LocationProtocol_EmergencyReportStopAnswer : typ := Typ ["location_protocol"; "emergency_report_stop_answer"]
  (Attr "request_id" ETrue Once None (TInt U4be)
  (Attr "radio_ip" ETrue Once None (TImported T_RadioIp)
  (Attr "result" ETrue Once (Some K_LocationProtocol_ResultCodes) (TInt U2be)
  Nil))).

(** hytera/location_protocol.ksy:108-113 [location_protocol.emergency_report_stop_request] *)
Definition T_LocationProtocol_EmergencyReportStopRequest : typ := Typ ["location_protocol"; "emergency_report_stop_request"]
  (Attr "request_id" ETrue Once None (TInt U4be)
  (Attr "radio_ip" ETrue Once None (TImported T_RadioIp)
  Nil)).

(** hytera/location_protocol.ksy:83-93 [location_protocol.standard_answer] *)
Definition T_LocationProtocol_StandardAnswer : typ := Typ ["location_protocol"; "standard_answer"]
  (Attr "request_id" ETrue Once None (TInt U4be)
  (Attr "radio_ip" ETrue Once None (TImported T_RadioIp)
  (Attr "result" ETrue Once (Some K_LocationProtocol_ResultCodes) (TInt U2be)
  (Attr "gpsdata" ETrue Once None (TImported T_Gpsdata)
  Nil)))).

(** hytera/location_protocol.ksy:94-107 [location_protocol.standard_answer_with_rssi] *)
Definition T_LocationProtocol_StandardAnswerWithRssi : typ := Typ ["location_protocol"; "standard_answer_with_rssi"]
  (Attr "request_id" ETrue Once None (TInt U4be)
  (Attr "radio_ip" ETrue Once None (TImported T_RadioIp)
  (Attr "result" ETrue Once (Some K_LocationProtocol_ResultCodes) (TInt U2be)
  (Attr "gpsdata" ETrue Once None (TImported T_Gpsdata)
  (Attr "rssi_value" ETrue Once None (TInt S2be)
  Nil))))).

(** hytera/location_protocol.ksy:77-82 [location_protocol.standard_request] *)
Definition T_LocationProtocol_StandardRequest : typ := Typ ["location_protocol"; "standard_request"]
  (Attr "request_id" ETrue Once None (TInt U4be)
  (Attr "radio_ip" ETrue Once None (TImported T_RadioIp)
  Nil)).

(** hytera/location_protocol.ksy:152-161 [location_protocol.triggered_report] *)
Definition T_LocationProtocol_TriggeredReport : typ := Typ ["location_protocol"; "triggered_report"]
  (Attr "request_id" ETrue Once None (TInt U4be)
  (Attr "radio_ip" ETrue Once None (TImported T_RadioIp)
  (Attr "time_remaining" ETrue Once None (TImported T_Intervalstring)
  (Attr "gpsdata" ETrue Once None (TImported T_Gpsdata)
  Nil)))).

(** hytera/location_protocol.ksy:143-151 [location_protocol.triggered_report_answer] *)
Definition T_LocationProtocol_TriggeredReportAnswer : typ := Typ ["location_protocol"; "triggered_report_answer"]
  (Attr "request_id" ETrue Once None (TInt U4be)
  (Attr "radio_ip" ETrue Once None (TImported T_RadioIp)
  (Attr "result" ETrue Once (Some K_LocationProtocol_ResultCodes) (TInt U2be)
  Nil))).

(** hytera/location_protocol.ksy:131-142 [location_protocol.triggered_report_request] *)
Definition T_LocationProtocol_TriggeredReportRequest : typ := Typ ["location_protocol"; "triggered_report_request"]
  (Attr "request_id" ETrue Once None (TInt U4be)
  (Attr "radio_ip" ETrue Once None (TImported T_RadioIp)
  (Attr "start_time" ETrue Once None (TImported T_Datetimestring)
  (Attr "stop_time" ETrue Once None (TImported T_Datetimestring)
  (Attr "interval" ETrue Once None (TImported T_Intervalstring)
  Nil))))).

(** hytera/location_protocol.ksy:168-176 [location_protocol.triggered_report_stop_answer] *)
Definition T_LocationProtocol_TriggeredReportStopAnswer : typ := Typ ["location_protocol"; "triggered_report_stop_answer"]
  (Attr "request_id" ETrue Once None (TInt U4be)
  (Attr "radio_ip" ETrue Once None (TImported T_RadioIp)
  (Attr "result" ETrue Once (Some K_LocationProtocol_ResultCodes) (TInt U2be)
  Nil))).

(** hytera/location_protocol.ksy:162-167 [location_protocol.triggered_report_stop_request] *)
Definition T_LocationProtocol_TriggeredReportStopRequest : typ := Typ ["location_protocol"; "triggered_report_stop_request"]
  (Attr "request_id" ETrue Once None (TInt U4be)
  (Attr "radio_ip" ETrue Once None (TImported T_RadioIp)
  Nil)).

(** hytera/location_protocol.ksy:1-273 [location_protocol] *)
Definition T_LocationProtocol : typ := Typ ["location_protocol"]
  (Attr "opcode_header" ETrue Once (Some K_LocationProtocol_LpSpecificTypes) (TInt U2be)
  (Attr "message_length" ETrue Once None (TInt U2be)
  (Attr "data" ETrue Once None (TSwitch (EAttr Self "opcode_header")
      (CCons (KMember K_LocationProtocol_LpSpecificTypes "standard_request") (TLocal T_LocationProtocol_StandardRequest)
      (CCons (KMember K_LocationProtocol_LpSpecificTypes "standard_answer") (TLocal T_LocationProtocol_StandardAnswer)
      (CCons (KMember K_LocationProtocol_LpSpecificTypes "standard_answer_with_rssi") (TLocal T_LocationProtocol_StandardAnswerWithRssi)
      (CCons (KMember K_LocationProtocol_LpSpecificTypes "emergency_report_stop_request") (TLocal T_LocationProtocol_EmergencyReportStopRequest)
      (CCons (KMember K_LocationProtocol_LpSpecificTypes "emergency_report_stop_answer") (TLocal T_LocationProtocol_EmergencyReportStopAnswer)
      (CCons (KMember K_LocationProtocol_LpSpecificTypes "emergency_report") (TLocal T_LocationProtocol_EmergencyReport)
      (CCons (KMember K_LocationProtocol_LpSpecificTypes "triggered_report_request") (TLocal T_LocationProtocol_TriggeredReportRequest)
      (CCons (KMember K_LocationProtocol_LpSpecificTypes "triggered_report_answer") (TLocal T_LocationProtocol_TriggeredReportAnswer)
      (CCons (KMember K_LocationProtocol_LpSpecificTypes "triggered_report") (TLocal T_LocationProtocol_TriggeredReport)
      (CCons (KMember K_LocationProtocol_LpSpecificTypes "triggered_report_stop_request") (TLocal T_LocationProtocol_TriggeredReportStopRequest)
      (CCons (KMember K_LocationProtocol_LpSpecificTypes "triggered_report_stop_answer") (TLocal T_LocationProtocol_TriggeredReportStopAnswer)
      (CCons (KMember K_LocationProtocol_LpSpecificTypes "condition_report_request") (TLocal T_LocationProtocol_ConditionReportRequest)
      (CCons (KMember K_LocationProtocol_LpSpecificTypes "condition_report_answer") (TLocal T_LocationProtocol_ConditionReportAnswer)
      (CCons (KMember K_LocationProtocol_LpSpecificTypes "condition_report") (TLocal T_LocationProtocol_ConditionReport)
      (CCons (KMember K_LocationProtocol_LpSpecificTypes "condition_report_with_rssi") (TLocal T_LocationProtocol_ConditionReportWithRssi)
      (CCons (KMember K_LocationProtocol_LpSpecificTypes "condition_quick_gps_request") (TLocal T_LocationProtocol_ConditionQuickGpsRequest)
      (CCons (KMember K_LocationProtocol_LpSpecificTypes "condition_quick_gps_answer") (TLocal T_LocationProtocol_ConditionQuickGpsAnswer)
      CNil))))))))))))))))))
  Nil))).

(** hytera/radio_control_protocol.ksy:124-128 [radio_control_protocol.broadcast_status_configuration_reply] *)
Definition T_RadioControlProtocol_BroadcastStatusConfigurationReply : typ := Typ ["radio_control_protocol"; "broadcast_status_configuration_reply"]
  (Attr "result" ETrue Once (Some K_RadioControlProtocol_ReplyResults) (TInt U1)
  Nil).

(** hytera/radio_control_protocol.ksy:107-114 [radio_control_protocol.broadcast_configuration] *)
Definition T_RadioControlProtocol_BroadcastConfiguration : typ := Typ ["radio_control_protocol"; "broadcast_configuration"]
  (Attr "config_operation" ETrue Once None (TInt U1)
  (Attr "config_target" ETrue Once None (TInt U1)
  Nil)).

(** hytera/radio_control_protocol.ksy:115-123 [radio_control_protocol.broadcast_status_configuration_request] *)
Definition T_RadioControlProtocol_BroadcastStatusConfigurationRequest : typ := Typ ["radio_control_protocol"; "broadcast_status_configuration_request"]
  (Attr "num_broadcast_configuration" ETrue Once None (TInt U1)
  (Attr "broadcast_configuration" ETrue (Times (EAttr Self "num_broadcast_configuration")) None (TLocal T_RadioControlProtocol_BroadcastConfiguration)
  Nil)).

(** hytera/radio_control_protocol.ksy:88-92 [radio_control_protocol.call_reply] *)
Definition T_RadioControlProtocol_CallReply : typ := Typ ["radio_control_protocol"; "call_reply"]
  (Attr "result" ETrue Once (Some K_RadioControlProtocol_ReplyResults) (TInt U1)
  Nil).

(** hytera/radio_control_protocol.ksy:80-87 [radio_control_protocol.call_request] *)
Definition T_RadioControlProtocol_CallRequest : typ := Typ ["radio_control_protocol"; "call_request"]
  (Attr "call_type" ETrue Once (Some K_RadioControlProtocol_CallTypes) (TInt U1)
  (Attr "target_id" ETrue Once None (TInt U4le)
  Nil)).

(** hytera/radio_control_protocol.ksy:93-96 [radio_control_protocol.generic_data] *)
Definition T_RadioControlProtocol_GenericData : typ := Typ ["radio_control_protocol"; "generic_data"]
  (Attr "data" ETrue Once None (TBytes (EAttr Parent "message_length"))
  Nil).

(** hytera/radio_control_protocol.ksy:129-141 [radio_control_protocol.radio_identification_reply] *)
Definition T_RadioControlProtocol_RadioIdentificationReply : typ := Typ ["radio_control_protocol"; "radio_identification_reply"]
  (Attr "header" (EBin Ge (EAttr Parent "message_length") (EInt 6)) Once None (TBytes (EInt 6))
  (Attr "text" (EBin Ge (EAttr Parent "message_length") (EInt 198)) Once None (TStr UTF16BE (EInt 192))
  (Attr "footer" (EBin Ge (EAttr Parent "message_length") (EInt 206)) Once None (TBytes (EInt 8))
  Nil))).

(** hytera/radio_control_protocol.ksy:101-106 [radio_control_protocol.remove_radio_reply] *)
Definition T_RadioControlProtocol_RemoveRadioReply : typ := Typ ["radio_control_protocol"; "remove_radio_reply"]
  (Attr "result" ETrue Once (Some K_RadioControlProtocol_ReplyResults) (TInt U1)
  Nil).

(** hytera/radio_control_protocol.ksy:97-100 [radio_control_protocol.remove_radio_request] *)
Definition T_RadioControlProtocol_RemoveRadioRequest : typ := Typ ["radio_control_protocol"; "remove_radio_request"]
  Nil.

(** hytera/radio_control_protocol.ksy:1-160 [radio_control_protocol] *)
Definition T_RadioControlProtocol : typ := Typ ["radio_control_protocol"]
  (Attr "service_type" ETrue Once (Some K_RadioControlProtocol_ServiceTypes) (TInt U2le)
  (Attr "message_length" ETrue Once None (TInt U2le)
  (Attr "data" ETrue Once None (TSwitch (EAttr Self "service_type")
      (CCons (KMember K_RadioControlProtocol_ServiceTypes "call_request") (TLocal T_RadioControlProtocol_CallRequest)
      (CCons (KMember K_RadioControlProtocol_ServiceTypes "call_reply") (TLocal T_RadioControlProtocol_CallReply)
      (CCons (KMember K_RadioControlProtocol_ServiceTypes "remove_radio_request") (TLocal T_RadioControlProtocol_RemoveRadioRequest)
      (CCons (KMember K_RadioControlProtocol_ServiceTypes "remove_radio_reply") (TLocal T_RadioControlProtocol_RemoveRadioReply)
      (CCons (KMember K_RadioControlProtocol_ServiceTypes "broadcast_status_configuration_request") (TLocal T_RadioControlProtocol_BroadcastStatusConfigurationRequest)
      (CCons (KMember K_RadioControlProtocol_ServiceTypes "broadcast_status_configuration_reply") (TLocal T_RadioControlProtocol_BroadcastStatusConfigurationReply)
      (CCons (KMember K_RadioControlProtocol_ServiceTypes "radio_identification_reply") (TLocal T_RadioControlProtocol_RadioIdentificationReply)
      (CDefault (TLocal T_RadioControlProtocol_GenericData))))))))))
  Nil))).

(** hytera/radio_registration_service.ksy:1-30 [radio_registration_service] *)
Definition T_RadioRegistrationService : typ := Typ ["radio_registration_service"]
  (Attr "opcode" ETrue Once None (TContents (B [0]))
  (Attr "rrs_type" ETrue Once (Some K_RadioRegistrationService_RrsTypes) (TInt U1)
  (Attr "message_length" ETrue Once None (TInt U2be)
  (Attr "radio_ip" ETrue Once None (TImported T_RadioIp)
  (Attr "result" (EOr (EIs (EAttr Self "rrs_type") K_RadioRegistrationService_RrsTypes "registration_ack") (EIs (EAttr Self "rrs_type") K_RadioRegistrationService_RrsTypes "online_check_ack")) Once None (TInt U1)
  (Attr "valid_time" (EIs (EAttr Self "rrs_type") K_RadioRegistrationService_RrsTypes "registration_ack") Once None (TInt U4be)
  Nil)))))).

(** hytera/telemetry_protocol.ksy:34 instance [telemetry_protocol.specific_service] *)
Definition I_TelemetryProtocol_specific_service : inst :=
  IAt "specific_service" ETrue (EInt 0) (Some K_TelemetryProtocol_ServiceSpecificTypes) (TInt U2be).

(** hytera/telemetry_protocol.ksy:39-49 [telemetry_protocol.vio_extended_status] *)
Definition T_TelemetryProtocol_VioExtendedStatus : typ := Typ ["telemetry_protocol"; "vio_extended_status"]
  (Attr "result" ETrue Once (Some K_TelemetryProtocol_ResultTypes) (TInt U1)
  (Attr "message_length" ETrue Once None (TInt U2be)
  (Attr "message" ETrue Once None (TStr UTF16LE (EAttr Self "message_length"))
  Nil))).

(** hytera/telemetry_protocol.ksy:84-101 [telemetry_protocol.extended_status_report] *)
Definition T_TelemetryProtocol_ExtendedStatusReport : typ := Typ ["telemetry_protocol"; "extended_status_report"]
  (Attr "source_ip" ETrue Once None (TImported T_RadioIp)
  (Attr "target_ip" ETrue Once None (TImported T_RadioIp)
  (Attr "pc_flag" ETrue Once (Some K_TelemetryProtocol_PcFlagTypes) (TInt U1)
  (Attr "call_type" ETrue Once (Some K_TelemetryProtocol_CallTypes) (TInt U1)
  (Attr "vio_select" ETrue Once None (TBytes (EInt 1))
  (Attr "result_messages" ETrue Once None (TLocal T_TelemetryProtocol_VioExtendedStatus)
  Nil)))))).

(** hytera/telemetry_protocol.ksy:121-139 [telemetry_protocol.remote_control_answer] *)
Definition T_TelemetryProtocol_RemoteControlAnswer : typ := Typ ["telemetry_protocol"; "remote_control_answer"]
  (Attr "source_ip" ETrue Once None (TImported T_RadioIp)
  (Attr "target_ip" ETrue Once None (TImported T_RadioIp)
  (Attr "pc_flag" ETrue Once (Some K_TelemetryProtocol_PcFlagTypes) (TInt U1)
  (Attr "call_type" ETrue Once (Some K_TelemetryProtocol_CallTypes) (TInt U1)
  (Attr "vio_select" ETrue Once None (TBytes (EInt 1))
  (Attr "result" ETrue Once (Some K_TelemetryProtocol_ControlResultTypes) (TInt U1)
  Nil)))))).

(** hytera/telemetry_protocol.ksy:102-120 [telemetry_protocol.remote_control_request] *)
Definition T_TelemetryProtocol_RemoteControlRequest : typ := Typ ["telemetry_protocol"; "remote_control_request"]
  (Attr "source_ip" ETrue Once None (TImported T_RadioIp)
  (Attr "target_ip" ETrue Once None (TImported T_RadioIp)
  (Attr "pc_flag" ETrue Once (Some K_TelemetryProtocol_PcFlagTypes) (TInt U1)
  (Attr "call_type" ETrue Once (Some K_TelemetryProtocol_CallTypes) (TInt U1)
  (Attr "vio_select" ETrue Once None (TBytes (EInt 1))
  (Attr "operation" ETrue Once (Some K_TelemetryProtocol_OperationTypes) (TInt U1)
  Nil)))))).

(** hytera/telemetry_protocol.ksy:65-83 [telemetry_protocol.standard_status_report] *)
Definition T_TelemetryProtocol_StandardStatusReport : typ := Typ ["telemetry_protocol"; "standard_status_report"]
  (Attr "source_ip" ETrue Once None (TImported T_RadioIp)
  (Attr "target_ip" ETrue Once None (TImported T_RadioIp)
  (Attr "pc_flag" ETrue Once (Some K_TelemetryProtocol_PcFlagTypes) (TInt U1)
  (Attr "call_type" ETrue Once (Some K_TelemetryProtocol_CallTypes) (TInt U1)
  (Attr "vio_select" ETrue Once None (TBytes (EInt 1))
  (Attr "result" ETrue Once (Some K_TelemetryProtocol_ResultTypes) (TInt U1)
  Nil)))))).

(** hytera/telemetry_protocol.ksy:50-64 [telemetry_protocol.standard_status_request] *)
Definition T_TelemetryProtocol_StandardStatusRequest : typ := Typ ["telemetry_protocol"; "standard_status_request"]
  (Attr "source_ip" ETrue Once None (TImported T_RadioIp)
  (Attr "target_ip" ETrue Once None (TImported T_RadioIp)
  (Attr "pc_flag" ETrue Once (Some K_TelemetryProtocol_PcFlagTypes) (TInt U1)
  (Attr "call_type" ETrue Once (Some K_TelemetryProtocol_CallTypes) (TInt U1)
  (Attr "vio_select" ETrue Once None (TBytes (EInt 1))
  Nil))))).

(** hytera/telemetry_protocol.ksy:1-158 [telemetry_protocol] *)
Definition T_TelemetryProtocol : typ := Typ ["telemetry_protocol"]
  (Attr "service_type_opcode" ETrue Once (Some K_TelemetryProtocol_ServiceTypes) (TInt U1)
  (Attr "specific_service_opcode" ETrue Once None (TInt U1)
  (Attr "message_length" ETrue Once None (TInt U2be)
  (Attr "data" ETrue Once None (TSwitch (EInst Self I_TelemetryProtocol_specific_service)
      (CCons (KMember K_TelemetryProtocol_ServiceSpecificTypes "standard_status_request") (TLocal T_TelemetryProtocol_StandardStatusRequest)
      (CCons (KMember K_TelemetryProtocol_ServiceSpecificTypes "standard_status_report") (TLocal T_TelemetryProtocol_StandardStatusReport)
      (CCons (KMember K_TelemetryProtocol_ServiceSpecificTypes "extended_status_report") (TLocal T_TelemetryProtocol_ExtendedStatusReport)
      (CCons (KMember K_TelemetryProtocol_ServiceSpecificTypes "remote_control_request") (TLocal T_TelemetryProtocol_RemoteControlRequest)
      (CCons (KMember K_TelemetryProtocol_ServiceSpecificTypes "remote_control_answer") (TLocal T_TelemetryProtocol_RemoteControlAnswer)
      CNil))))))
  Nil)))).

(** hytera/text_message_protocol.ksy:31 instance [text_message_protocol.option_sum_len] *)
Definition I_TextMessageProtocol_option_sum_len : inst :=
  IValue "option_sum_len" (EIf (EBin EqI (EToI (EAttr Self "option_flag")) (EInt 1)) (EBin Add (EAttr Self "option_field_len") (EInt 2)) (EInt 0)).

(** hytera/text_message_protocol.ksy:1-76 [text_message_protocol] *)
Definition T_TextMessageProtocol : typ := Typ ["text_message_protocol"]
  (Attr "ack_flag" ETrue Once (Some K_TextMessageProtocol_AckFlags) (TBits 1)
  (Attr "option_flag" ETrue Once (Some K_TextMessageProtocol_OptionFlags) (TBits 1)
  (Attr "reserved" ETrue Once None (TBits 6)
  (Attr "service_type" ETrue Once (Some K_TextMessageProtocol_ServiceTypes) (TInt U1)
  (Attr "message_length" ETrue Once None (TInt U2be)
  (Attr "option_field_len" (EBin EqI (EToI (EAttr Self "option_flag")) (EInt 1)) Once None (TInt U2be)
  (Attr "request_id" ETrue Once None (TInt U4be)
  (Attr "destination_ip" ETrue Once None (TImported T_RadioIp)
  (Attr "source_ip" (ENot (EIs (EAttr Self "service_type") K_TextMessageProtocol_ServiceTypes "send_group_message_ack")) Once None (TImported T_RadioIp)
  (Attr "result" (EOr (EIs (EAttr Self "service_type") K_TextMessageProtocol_ServiceTypes "send_private_message_ack") (EIs (EAttr Self "service_type") K_TextMessageProtocol_ServiceTypes "send_group_message_ack")) Once (Some K_TextMessageProtocol_ResultCodes) (TInt U1)
  (Attr "tmdata" (EOr (EIs (EAttr Self "service_type") K_TextMessageProtocol_ServiceTypes "send_private_message") (EIs (EAttr Self "service_type") K_TextMessageProtocol_ServiceTypes "send_group_message")) Once None (TStr UTF16LE (EBin Sub (EBin Sub (EBin Sub (EBin Sub (EAttr Self "message_length") (EInt 4)) (EInt 4)) (EInt 4)) (EInst Self I_TextMessageProtocol_option_sum_len)))
  (Attr "option_field" (EBin EqI (EToI (EAttr Self "option_flag")) (EInt 1)) Once None (TStr UTF16LE (EAttr Self "option_field_len"))
  Nil)))))))))))).

(** hytera/hytera_dmr_application_protocol.ksy:1-50 [hytera_dmr_application_protocol] *)
Definition T_HyteraDmrApplicationProtocol : typ := Typ ["hytera_dmr_application_protocol"]
  (Attr "is_reliable_message" ETrue Once None (TFlag)
  (Attr "message_header" ETrue Once (Some K_HyteraDmrApplicationProtocol_MessageHeaderTypes) (TBits 7)
  (Attr "data" ETrue Once None (TSwitch (EAttr Self "message_header")
      (CCons (KMember K_HyteraDmrApplicationProtocol_MessageHeaderTypes "radio_control_protocol") (TImported T_RadioControlProtocol)
      (CCons (KMember K_HyteraDmrApplicationProtocol_MessageHeaderTypes "location_protocol") (TImported T_LocationProtocol)
      (CCons (KMember K_HyteraDmrApplicationProtocol_MessageHeaderTypes "text_message_protocol") (TImported T_TextMessageProtocol)
      (CCons (KMember K_HyteraDmrApplicationProtocol_MessageHeaderTypes "radio_registration") (TImported T_RadioRegistrationService)
      (CCons (KMember K_HyteraDmrApplicationProtocol_MessageHeaderTypes "telemetry_protocol") (TImported T_TelemetryProtocol)
      (CCons (KMember K_HyteraDmrApplicationProtocol_MessageHeaderTypes "data_transmit_protocol") (TImported T_DataTransmitProtocol)
      (CCons (KMember K_HyteraDmrApplicationProtocol_MessageHeaderTypes "data_delivery_states") (TImported T_DataDeliveryStates)
      CNil))))))))
  (Attr "checksum" ETrue Once None (TInt U1)
  (Attr "message_footer" ETrue Once None (TContents (B [3]))
  Nil))))).

(** hytera/hytera_radio_network_protocol.ksy:1-36 [hytera_radio_network_protocol] *)
Definition T_HyteraRadioNetworkProtocol : typ := Typ ["hytera_radio_network_protocol"]
  (Attr "header_identifier" ETrue Once None (TContents (B [126]))
  (Attr "version" ETrue Once None (TInt U1)
  (Attr "block" ETrue Once None (TInt U1)
  (Attr "opcode" ETrue Once (Some K_HyteraRadioNetworkProtocol_Opcodes) (TInt U1)
  (Attr "source_id" ETrue Once None (TInt U1)
  (Attr "destination_id" ETrue Once None (TInt U1)
  (Attr "packet_number" ETrue Once None (TInt U2be)
  (Attr "hrnp_packet_length" ETrue Once None (TInt U2be)
  (Attr "checksum" ETrue Once None (TInt U2be)
  (Attr "data" (EIs (EAttr Self "opcode") K_HyteraRadioNetworkProtocol_Opcodes "data") Once None (TImported T_HyteraDmrApplicationProtocol)
  Nil)))))))))).

(** hytera/hytera_simple_transport_reliability_protocol.ksy:47-58 [hytera_simple_transport_reliability_protocol.option] *)
Definition T_HyteraSimpleTransportReliabilityProtocol_Option : typ := Typ ["hytera_simple_transport_reliability_protocol"; "option"]
  (Attr "expect_more_options" ETrue Once None (TFlag)
  (Attr "command" ETrue Once (Some K_HyteraSimpleTransportReliabilityProtocol_OptionCommands) (TBits 7)
  (Attr "len_option_payload" ETrue Once None (TInt U1)
  (Attr "option_payload" ETrue Once None (TBytes (EAttr Self "len_option_payload"))
  Nil)))).

(** hytera/hytera_simple_transport_reliability_protocol.ksy:1-58 [hytera_simple_transport_reliability_protocol] *)
Definition T_HyteraSimpleTransportReliabilityProtocol : typ := Typ ["hytera_simple_transport_reliability_protocol"]
  (Attr "header" ETrue Once None (TContents (B [50; 66]))
  (Attr "version" ETrue Once None (TInt U1)
  (Attr "reserved" ETrue Once None (TBits 2)
  (Attr "has_option" ETrue Once None (TFlag)
  (Attr "is_reject" ETrue Once None (TFlag)
  (Attr "is_close" ETrue Once None (TFlag)
  (Attr "is_connect" ETrue Once None (TFlag)
  (Attr "is_heartbeat" ETrue Once None (TFlag)
  (Attr "is_ack" ETrue Once None (TFlag)
  (Attr "sequence_number" ETrue Once None (TInt U2be)
  (Attr "options" (EAnd (ENot EEof) (EAnd (ENot (EAttr Self "is_heartbeat")) (EAttr Self "has_option"))) (Until (ENot (EDot EItem "expect_more_options"))) None (TLocal T_HyteraSimpleTransportReliabilityProtocol_Option)
  (Attr "data" (EAnd (ENot EEof) (EAnd (ENot (EAttr Self "is_reject")) (EAnd (ENot (EAttr Self "is_close")) (ENot (EAttr Self "is_connect"))))) Eos None (TImported T_HyteraDmrApplicationProtocol)
  (Attr "extra_data" (ENot EEof) Once None (TEos)
  Nil))))))))))))).

(** hytera/ip_site_connect_heartbeat.ksy:7-10 [ip_site_connect_heartbeat.keepalive] *)
Definition T_IpSiteConnectHeartbeat_Keepalive : typ := Typ ["ip_site_connect_heartbeat"; "keepalive"]
  (Attr "nullbyte" ETrue Once None (TContents (B [0]))
  Nil).

(** hytera/ip_site_connect_heartbeat.ksy:11-24 [ip_site_connect_heartbeat.ping_pong] *)
Definition T_IpSiteConnectHeartbeat_PingPong : typ := Typ ["ip_site_connect_heartbeat"; "ping_pong"]
  (Attr "header" ETrue Once None (TContents (B [90; 90; 90; 90]))
  (Attr "heartbeat_identitier" ETrue Once None (TContents (B [10; 0; 0; 0; 20]))
  (Attr "nullbytes" ETrue Once None (TContents (B [0; 0; 0]))
  (Attr "heartbeat_seq" ETrue Once None (TInt U1)
  (Attr "tail" ETrue Once None (TContents (B [90; 89; 90; 0; 0; 0; 0]))
  Nil))))).

(** hytera/ip_site_connect_heartbeat.ksy:25-28 [ip_site_connect_heartbeat.unknown] *)
Definition T_IpSiteConnectHeartbeat_Unknown : typ := Typ ["ip_site_connect_heartbeat"; "unknown"]
  (Attr "data" ETrue Once None (TEos)
  Nil).

(** hytera/ip_site_connect_heartbeat.ksy:1-36 [ip_site_connect_heartbeat] *)
Definition T_IpSiteConnectHeartbeat : typ := Typ ["ip_site_connect_heartbeat"]
  (Attr "data" ETrue Once None (TSwitch ESize
      (CCons (KInt 1) (TLocal T_IpSiteConnectHeartbeat_Keepalive)
      (CCons (KInt 20) (TLocal T_IpSiteConnectHeartbeat_PingPong)
      (CDefault (TLocal T_IpSiteConnectHeartbeat_Unknown)))))
  Nil).

(** hytera/ip_site_connect_protocol.ksy:1-100 [ip_site_connect_protocol] *)
Definition T_IpSiteConnectProtocol : typ := Typ ["ip_site_connect_protocol"]
  (Attr "source_port" ETrue Once None (TBytes (EInt 2))
  (Attr "fixed_header" ETrue Once None (TContents (B [90; 90]))
  (Attr "sequence_number" ETrue Once None (TInt U1)
  (Attr "reserved_3" ETrue Once None (TBytes (EInt 3))
  (Attr "packet_type" ETrue Once (Some K_IpSiteConnectProtocol_PacketTypes) (TInt U1)
  (Attr "reserved_7a" ETrue Once None (TBytes (EInt 7))
  (Attr "timeslot_raw" ETrue Once (Some K_IpSiteConnectProtocol_Timeslots) (TInt U2be)
  (Attr "slot_type" ETrue Once (Some K_IpSiteConnectProtocol_SlotTypes) (TInt U2be)
  (Attr "color_code_raw" ETrue Once None (TInt U2le)
  (Attr "frame_type" ETrue Once (Some K_IpSiteConnectProtocol_FrameTypes) (TInt U2be)
  (Attr "reserved_2a" ETrue Once None (TBytes (EInt 2))
  (Attr "ipsc_payload" ETrue Once None (TBytes (EInt 34))
  (Attr "reserved_2b" ETrue Once None (TBytes (EInt 2))
  (Attr "call_type" ETrue Once (Some K_IpSiteConnectProtocol_CallTypes) (TInt U1)
  (Attr "destination_radio_id_raw" ETrue Once None (TInt U4le)
  (Attr "source_radio_id_raw" ETrue Once None (TInt U4le)
  (Attr "reserved_1b" ETrue Once None (TInt U1)
  (Attr "extra_data" (ENot EEof) Once None (TEos)
  Nil)))))))))))))))))).

(** hytera/radio_id.ksy:1-11 [radio_id] *)
Definition T_RadioId : typ := Typ ["radio_id"]
  (Attr "radio_id_raw" ETrue Once None (TInt U4le)
  Nil).

(** hytera/real_time_transport_protocol.ksy:19-51 [real_time_transport_protocol.fixed_header] *)
Definition T_RealTimeTransportProtocol_FixedHeader : typ := Typ ["real_time_transport_protocol"; "fixed_header"]
  (Attr "version" ETrue Once None (TValid (TBits 2) 2)
  (Attr "padding" ETrue Once None (TFlag)
  (Attr "extension" ETrue Once None (TFlag)
  (Attr "num_csrc" ETrue Once None (TBits 4)
  (Attr "marker" ETrue Once None (TFlag)
  (Attr "payload_type" ETrue Once None (TBits 7)
  (Attr "sequence_number" ETrue Once None (TInt U2be)
  (Attr "timestamp" ETrue Once None (TInt U4be)
  (Attr "ssrc" ETrue Once None (TInt U4be)
  (Attr "csrc" ETrue (Times (EAttr Self "num_csrc")) None (TInt U4be)
  Nil)))))))))).

(** hytera/real_time_transport_protocol.ksy:52-74 [real_time_transport_protocol.header_extension] *)
Definition T_RealTimeTransportProtocol_HeaderExtension : typ := Typ ["real_time_transport_protocol"; "header_extension"]
  (Attr "header_identifier" ETrue Once None (TInt U2be)
  (Attr "length" ETrue Once None (TInt U2be)
  (Attr "slot" ETrue Once None (TBits 7)
  (Attr "last_flag" ETrue Once None (TFlag)
  (Attr "source_id" ETrue Once None (TImported T_RadioId)
  (Attr "destination_id" ETrue Once None (TImported T_RadioId)
  (Attr "call_type" ETrue Once (Some K_RealTimeTransportProtocol_CallTypes) (TInt U1)
  (Attr "reserved" ETrue Once None (TBytes (EInt 4))
  Nil)))))))).

(** hytera/real_time_transport_protocol.ksy:76 instance [real_time_transport_protocol.len_padding_if_exists] *)
Definition I_RealTimeTransportProtocol_len_padding_if_exists : inst :=
  IAt "len_padding_if_exists" (EDot (EAttr Self "fixed_header") "padding") (EBin Sub ESize (EInt 1)) None (TInt U1).

(** hytera/real_time_transport_protocol.ksy:80 instance [real_time_transport_protocol.len_padding] *)
Definition I_RealTimeTransportProtocol_len_padding : inst :=
  IValue "len_padding" (EIf (EDot (EAttr Self "fixed_header") "padding") (EInst Self I_RealTimeTransportProtocol_len_padding_if_exists) (EInt 0)).

(** hytera/real_time_transport_protocol.ksy:1-92 [real_time_transport_protocol] *)
Definition T_RealTimeTransportProtocol : typ := Typ ["real_time_transport_protocol"]
  (Attr "fixed_header" ETrue Once None (TLocal T_RealTimeTransportProtocol_FixedHeader)
  (Attr "header_extension" (EDot (EAttr Self "fixed_header") "extension") Once None (TLocal T_RealTimeTransportProtocol_HeaderExtension)
  (Attr "audio_data" ETrue Once None (TBytes (EBin Sub (EBin Sub ESize EPos) (EInst Self I_RealTimeTransportProtocol_len_padding)))
  (Attr "padding" (EDot (EAttr Self "fixed_header") "padding") Once None (TBytes (EInst Self I_RealTimeTransportProtocol_len_padding))
  Nil)))).

(** motorola/automatic_registration_service.ksy:11-27 [automatic_registration_service.message_header_bits] *)
Definition T_AutomaticRegistrationService_MessageHeaderBits : typ := Typ ["automatic_registration_service"; "message_header_bits"]
  (Attr "extension_bit" ETrue Once None (TFlag)
  (Attr "acknowledgement_bit" ETrue Once None (TFlag)
  (Attr "priority" ETrue Once None (TFlag)
  (Attr "control_user_bit" ETrue Once None (TFlag)
  (Attr "pdu_type" ETrue Once None (TBits 4)
  Nil))))).

(** motorola/automatic_registration_service.ksy:28-38 [automatic_registration_service.device_registration_message_header] *)
Definition T_AutomaticRegistrationService_DeviceRegistrationMessageHeader : typ := Typ ["automatic_registration_service"; "device_registration_message_header"]
  (Attr "extension_bit" ETrue Once None (TFlag)
  (Attr "event" ETrue Once (Some K_AutomaticRegistrationService_RegistrationEvents) (TBits 2)
  (Attr "encoding" ETrue Once None (TBits 5)
  Nil))).

(** motorola/automatic_registration_service.ksy:39-59 [automatic_registration_service.device_registration_message] *)
Definition T_AutomaticRegistrationService_DeviceRegistrationMessage : typ := Typ ["automatic_registration_service"; "device_registration_message"]
  (Attr "device_registration_message_header" (EDot (EAttr Root "message_header") "extension_bit") Once None (TLocal T_AutomaticRegistrationService_DeviceRegistrationMessageHeader)
  (Attr "len_device_identifier" ETrue Once None (TInt U1)
  (Attr "device_identifier" (EBin Gt (EAttr Self "len_device_identifier") (EInt 0)) Once None (TBytes (EAttr Self "len_device_identifier"))
  (Attr "len_user_identifier" ETrue Once None (TInt U1)
  (Attr "user_identifier" (EBin Gt (EAttr Self "len_user_identifier") (EInt 0)) Once None (TBytes (EAttr Self "len_user_identifier"))
  (Attr "len_password" ETrue Once None (TInt U1)
  (Attr "password" (EBin Gt (EAttr Self "len_password") (EInt 0)) Once None (TBytes (EAttr Self "len_password"))
  Nil))))))).

(** motorola/automatic_registration_service.ksy:60-68 [automatic_registration_service.device_registration_acknowledgement_header] *)
Definition T_AutomaticRegistrationService_DeviceRegistrationAcknowledgementHeader : typ := Typ ["automatic_registration_service"; "device_registration_acknowledgement_header"]
  (Attr "extension_bit" ETrue Once None (TFlag)
  (Attr "refresh_time" ETrue Once None (TBits 7)
  Nil)).

(** motorola/automatic_registration_service.ksy:69-77 [automatic_registration_service.device_registration_acknowledgement_failure_reason] *)
Definition T_AutomaticRegistrationService_DeviceRegistrationAcknowledgementFailureReason : typ := Typ ["automatic_registration_service"; "device_registration_acknowledgement_failure_reason"]
  (Attr "extension_bit" ETrue Once None (TFlag)
  (Attr "failure_reason" ETrue Once (Some K_AutomaticRegistrationService_FailureReasons) (TBits 7)
  Nil)).

(** motorola/automatic_registration_service.ksy:78-88 [automatic_registration_service.acknowledgement_message] *)
Definition T_AutomaticRegistrationService_AcknowledgementMessage : typ := Typ ["automatic_registration_service"; "acknowledgement_message"]
  (Attr "device_registration_acknowledgement_header" (EAnd (EDot (EAttr Root "message_header") "extension_bit") (EDot (EAttr Root "message_header") "acknowledgement_bit")) Once None (TLocal T_AutomaticRegistrationService_DeviceRegistrationAcknowledgementHeader)
  (Attr "device_registration_acknowledgement_failure_reason" (EAnd (EDot (EAttr Root "message_header") "extension_bit") (ENot (EDot (EAttr Root "message_header") "acknowledgement_bit"))) Once None (TLocal T_AutomaticRegistrationService_DeviceRegistrationAcknowledgementFailureReason)
  Nil)).

(** motorola/automatic_registration_service.ksy:89-90 [automatic_registration_service.device_deregistration_message] *)
Definition T_AutomaticRegistrationService_DeviceDeregistrationMessage : typ := Typ ["automatic_registration_service"; "device_deregistration_message"]
  Nil.

(** motorola/automatic_registration_service.ksy:91-92 [automatic_registration_service.ars_query_message] *)
Definition T_AutomaticRegistrationService_ArsQueryMessage : typ := Typ ["automatic_registration_service"; "ars_query_message"]
  Nil.

(** motorola/automatic_registration_service.ksy:1-112 [automatic_registration_service] *)
Definition T_AutomaticRegistrationService : typ := Typ ["automatic_registration_service"]
  (Attr "message_size" ETrue Once None (TInt U2le)
  (Attr "message_header" ETrue Once None (TLocal T_AutomaticRegistrationService_MessageHeaderBits)
  (Attr "pdu_content" ETrue Once None (TSwitch (EDot (EAttr Self "message_header") "pdu_type")
      (CCons (KInt 0) (TLocal T_AutomaticRegistrationService_DeviceRegistrationMessage)
      (CCons (KInt 1) (TLocal T_AutomaticRegistrationService_DeviceDeregistrationMessage)
      (CCons (KInt 4) (TLocal T_AutomaticRegistrationService_ArsQueryMessage)
      (CCons (KInt 15) (TLocal T_AutomaticRegistrationService_AcknowledgementMessage)
      CNil)))))
  (Attr "unparsed_data" ETrue Once None (TEos)
  Nil)))).

(** motorola/motorola_binary_xml.ksy:18-26 [motorola_binary_xml.uintvar] *)
Definition T_MotorolaBinaryXml_Uintvar : typ := Typ ["motorola_binary_xml"; "uintvar"]
  (Attr "payload" ETrue (Until (EOr (EBin EqI (EBin BAnd EItem (EInt 128)) (EInt 0)) EEof)) None (TInt U1)
  Nil).

(** motorola/motorola_binary_xml.ksy:27-36 [motorola_binary_xml.sintvar] *)
Definition T_MotorolaBinaryXml_Sintvar : typ := Typ ["motorola_binary_xml"; "sintvar"]
  (Attr "payload" ETrue (Until (EOr (EBin EqI (EBin BAnd EItem (EInt 128)) (EInt 0)) EEof)) None (TInt U1)
  Nil).

(** motorola/motorola_binary_xml.ksy:37-45 [motorola_binary_xml.ufloatvar] *)
Definition T_MotorolaBinaryXml_Ufloatvar : typ := Typ ["motorola_binary_xml"; "ufloatvar"]
  (Attr "uint_payload" ETrue Once None (TLocal T_MotorolaBinaryXml_Uintvar)
  (Attr "fraction_payload" ETrue Once None (TLocal T_MotorolaBinaryXml_Uintvar)
  Nil)).

(** motorola/motorola_binary_xml.ksy:46-53 [motorola_binary_xml.sfloatvar] *)
Definition T_MotorolaBinaryXml_Sfloatvar : typ := Typ ["motorola_binary_xml"; "sfloatvar"]
  (Attr "sint_payload" ETrue Once None (TLocal T_MotorolaBinaryXml_Sintvar)
  (Attr "fraction_payload" ETrue Once None (TLocal T_MotorolaBinaryXml_Uintvar)
  Nil)).

(** motorola/motorola_binary_xml.ksy:54-59 [motorola_binary_xml.opaque_element_value] *)
Definition T_MotorolaBinaryXml_OpaqueElementValue : typ := Typ ["motorola_binary_xml"; "opaque_element_value"]
  (Attr "len_value" ETrue Once None (TInt U1)
  (Attr "value" ETrue Once None (TBytes (EAttr Self "len_value"))
  Nil)).

(** motorola/motorola_binary_xml.ksy:60-63 [motorola_binary_xml.opaque_1byte_value] *)
Definition T_MotorolaBinaryXml_Opaque1byteValue : typ := Typ ["motorola_binary_xml"; "opaque_1byte_value"]
  (Attr "value" ETrue Once None (TBytes (EInt 1))
  Nil).

(** motorola/motorola_binary_xml.ksy:64-67 [motorola_binary_xml.opaque_2byte_value] *)
Definition T_MotorolaBinaryXml_Opaque2byteValue : typ := Typ ["motorola_binary_xml"; "opaque_2byte_value"]
  (Attr "value" ETrue Once None (TBytes (EInt 2))
  Nil).

(** motorola/motorola_binary_xml.ksy:68-71 [motorola_binary_xml.opaque_3byte_value] *)
Definition T_MotorolaBinaryXml_Opaque3byteValue : typ := Typ ["motorola_binary_xml"; "opaque_3byte_value"]
  (Attr "value" ETrue Once None (TBytes (EInt 3))
  Nil).

(** motorola/motorola_binary_xml.ksy:72-75 [motorola_binary_xml.opaque_4byte_value] *)
Definition T_MotorolaBinaryXml_Opaque4byteValue : typ := Typ ["motorola_binary_xml"; "opaque_4byte_value"]
  (Attr "value" ETrue Once None (TBytes (EInt 4))
  Nil).

(** motorola/motorola_binary_xml.ksy:76-79 [motorola_binary_xml.opaque_5byte_value] *)
Definition T_MotorolaBinaryXml_Opaque5byteValue : typ := Typ ["motorola_binary_xml"; "opaque_5byte_value"]
  (Attr "value" ETrue Once None (TBytes (EInt 5))
  Nil).

(** motorola/motorola_binary_xml.ksy:80-83 [motorola_binary_xml.constant_data_table_reference] *)
Definition T_MotorolaBinaryXml_ConstantDataTableReference : typ := Typ ["motorola_binary_xml"; "constant_data_table_reference"]
  (Attr "byte_offset_from_cdt_start" ETrue Once None (TLocal T_MotorolaBinaryXml_Uintvar)
  Nil).

(** motorola/motorola_binary_xml.ksy:84-95 [motorola_binary_xml.lrrp_element] *)
Definition T_MotorolaBinaryXml_LrrpElement : typ := Typ ["motorola_binary_xml"; "lrrp_element"]
  (Attr "lrrp_element_type" ETrue Once (Some K_MotorolaBinaryXml_LrrpElements) (TInt U1)
  (Attr "lrrp_element_data" ETrue Once None (TSwitch (EAttr Self "lrrp_element_type")
      (CCons (KMember K_MotorolaBinaryXml_LrrpElements "request_id_22_opaque") (TLocal T_MotorolaBinaryXml_OpaqueElementValue)
      (CCons (KMember K_MotorolaBinaryXml_LrrpElements "request_id_23_opaque_1byte") (TLocal T_MotorolaBinaryXml_Opaque1byteValue)
      (CCons (KMember K_MotorolaBinaryXml_LrrpElements "request_id_24_cdt_reference") (TLocal T_MotorolaBinaryXml_ConstantDataTableReference)
      CNil))))
  Nil)).

(** motorola/motorola_binary_xml.ksy:96-99 [motorola_binary_xml.lrrp_immediate_request_ncdt] *)
Definition T_MotorolaBinaryXml_LrrpImmediateRequestNcdt : typ := Typ ["motorola_binary_xml"; "lrrp_immediate_request_ncdt"]
  (Attr "elements" ETrue Once None (TLocal T_MotorolaBinaryXml_LrrpElement)
  Nil).

(** motorola/motorola_binary_xml.ksy:100-116 [motorola_binary_xml.mbxml_document] *)
Definition T_MotorolaBinaryXml_MbxmlDocument : typ := Typ ["motorola_binary_xml"; "mbxml_document"]
  (Attr "document_id" ETrue Once (Some K_MotorolaBinaryXml_Docids) (TInt U1)
  (Attr "num_document_bytes" ETrue Once None (TLocal T_MotorolaBinaryXml_Uintvar)
  (Attr "document_data" ETrue Once None (TSwitch (EAttr Self "document_id")
      (CCons (KMember K_MotorolaBinaryXml_Docids "lrrp_immediate_request_ncdt") (TLocal T_MotorolaBinaryXml_LrrpImmediateRequestNcdt)
      CNil))
  Nil))).

(** motorola/motorola_binary_xml.ksy:1-121 [motorola_binary_xml] *)
Definition T_MotorolaBinaryXml : typ := Typ ["motorola_binary_xml"]
  (Attr "documents" ETrue (Until (ENot EEof)) None (TLocal T_MotorolaBinaryXml_MbxmlDocument)
  Nil).

(** motorola/text_message_protocol.ksy:11-27 [text_message_protocol.message_header_bits] *)
Definition T_MotTextMessageProtocol_MessageHeaderBits : typ := Typ ["text_message_protocol"; "message_header_bits"]
  (Attr "extension_bit" ETrue Once None (TFlag)
  (Attr "acknowledgement_required" ETrue Once None (TFlag)
  (Attr "reserved" ETrue Once None (TFlag)
  (Attr "control_user_bit" ETrue Once None (TFlag)
  (Attr "pdu_type" ETrue Once None (TBits 4)
  Nil))))).

(** motorola/text_message_protocol.ksy:28-37 [text_message_protocol.tms_service_availability_header] *)
Definition T_MotTextMessageProtocol_TmsServiceAvailabilityHeader : typ := Typ ["text_message_protocol"; "tms_service_availability_header"]
  (Attr "extension_bit" ETrue Once None (TFlag)
  (Attr "reserved" ETrue Once None (TBits 4)
  (Attr "device" ETrue Once (Some K_MotTextMessageProtocol_TmsServiceCapability) (TBits 3)
  Nil))).

(** motorola/text_message_protocol.ksy:38-43 [text_message_protocol.tms_service_availability] *)
Definition T_MotTextMessageProtocol_TmsServiceAvailability : typ := Typ ["text_message_protocol"; "tms_service_availability"]
  (Attr "header" (EDot (EAttr Root "message_header") "extension_bit") Once None (TLocal T_MotTextMessageProtocol_TmsServiceAvailabilityHeader)
  Nil).

(** motorola/text_message_protocol.ksy:44-47 [text_message_protocol.tms_service_availability_acknowledgement] *)
Definition T_MotTextMessageProtocol_TmsServiceAvailabilityAcknowledgement : typ := Typ ["text_message_protocol"; "tms_service_availability_acknowledgement"]
  Nil.

(** motorola/text_message_protocol.ksy:48-68 [text_message_protocol.tms_acknowledgement_header_sequence_number] *)
Definition T_MotTextMessageProtocol_TmsAcknowledgementHeaderSequenceNumber : typ := Typ ["text_message_protocol"; "tms_acknowledgement_header_sequence_number"]
  (Attr "has_msb_header" ETrue Once None (TFlag)
  (Attr "header_lsb_reserved" ETrue Once None (TBits 2)
  (Attr "header_lsb_bits" ETrue Once None (TBits 5)
  (Attr "header_msb_extension" (EAttr Self "has_msb_header") Once None (TFlag)
  (Attr "header_msb_bits" (EAttr Self "has_msb_header") Once None (TBits 2)
  (Attr "header_msb_reserved" (EAttr Self "has_msb_header") Once None (TBits 5)
  Nil)))))).

(** motorola/text_message_protocol.ksy:69-74 [text_message_protocol.tms_acknowledgement] *)
Definition T_MotTextMessageProtocol_TmsAcknowledgement : typ := Typ ["text_message_protocol"; "tms_acknowledgement"]
  (Attr "tms_acknowledgement_header_sequence_number" (EDot (EAttr Root "message_header") "extension_bit") Once None (TLocal T_MotTextMessageProtocol_TmsAcknowledgementHeaderSequenceNumber)
  Nil).

(** motorola/text_message_protocol.ksy:75-94 [text_message_protocol.text_message_header_sequence_and_encoding] *)
Definition T_MotTextMessageProtocol_TextMessageHeaderSequenceAndEncoding : typ := Typ ["text_message_protocol"; "text_message_header_sequence_and_encoding"]
  (Attr "has_encoding_header" ETrue Once None (TFlag)
  (Attr "reserved_1" ETrue Once None (TBits 2)
  (Attr "sequence_number_lsb_bits" ETrue Once None (TBits 5)
  (Attr "header_encoding_extension" (EAttr Self "has_encoding_header") Once None (TFlag)
  (Attr "sequence_number_msb_bits" (EAttr Self "has_encoding_header") Once None (TBits 2)
  (Attr "encoding" ETrue Once None (TBits 5)
  Nil)))))).

(** motorola/text_message_protocol.ksy:95-106 [text_message_protocol.text_message] *)
Definition T_MotTextMessageProtocol_TextMessage : typ := Typ ["text_message_protocol"; "text_message"]
  (Attr "text_message_header_sequence_and_encoding" (EDot (EAttr Root "message_header") "extension_bit") Once None (TLocal T_MotTextMessageProtocol_TextMessageHeaderSequenceAndEncoding)
  (Attr "text_message" ETrue Once None (TStrEos UTF16LE)
  Nil)).

(** motorola/text_message_protocol.ksy:108 instance [text_message_protocol.custom_pdu_type] *)
Definition I_MotTextMessageProtocol_custom_pdu_type : inst :=
  IValue "custom_pdu_type" (EBin Add (EBin Add (EBin Shl (EToI (EDot (EAttr Root "message_header") "acknowledgement_required")) (EInt 5)) (EBin Shl (EToI (EDot (EAttr Root "message_header") "control_user_bit")) (EInt 4))) (EDot (EAttr Root "message_header") "pdu_type")).

(** motorola/text_message_protocol.ksy:1-137 [text_message_protocol] *)
Definition T_MotTextMessageProtocol : typ := Typ ["text_message_protocol"]
  (Attr "message_size" ETrue Once None (TInt U2be)
  (Attr "message_header" ETrue Once None (TLocal T_MotTextMessageProtocol_MessageHeaderBits)
  (Attr "len_address" ETrue Once None (TInt U1)
  (Attr "address" (EBin Gt (EAttr Self "len_address") (EInt 0)) Once None (TBytes (EAttr Self "len_address"))
  (Attr "pdu_content" ETrue Once None (TSwitch (EInst Self I_MotTextMessageProtocol_custom_pdu_type)
      (CCons (KInt 48) (TLocal T_MotTextMessageProtocol_TmsServiceAvailability)
      (CCons (KInt 31) (TLocal T_MotTextMessageProtocol_TmsAcknowledgement)
      (CCons (KInt 0) (TLocal T_MotTextMessageProtocol_TextMessage)
      (CCons (KInt 32) (TLocal T_MotTextMessageProtocol_TextMessage)
      CNil)))))
  (Attr "unparsed_data" ETrue Once None (TEos)
  Nil)))))).

(** etsi/dmr_data_header.ksy:273 instance [dmr_data_header.data_header_short_raw.appended_blocks] *)
Definition I_DmrDataHeader_DataHeaderShortRaw_appended_blocks : inst :=
  IValue "appended_blocks" (EBin Add (EBin Shl (EAttr Self "appended_blocks_msb") (EInt 4)) (EAttr Self "appended_blocks_lsb")).

(** etsi/dmr_data_header.ksy:273 instance [dmr_data_header.data_header_short_defined.appended_blocks] *)
Definition I_DmrDataHeader_DataHeaderShortDefined_appended_blocks : inst :=
  IValue "appended_blocks" (EBin Add (EBin Shl (EAttr Self "appended_blocks_msb") (EInt 4)) (EAttr Self "appended_blocks_lsb")).

(** etsi/dmr_data_header.ksy:273 instance [dmr_data_header.data_header_short_status_precoded.appended_blocks] *)
Definition I_DmrDataHeader_DataHeaderShortStatusPrecoded_appended_blocks : inst :=
  IValue "appended_blocks" (EBin Add (EBin Shl (EAttr Self "appended_blocks_msb") (EInt 4)) (EAttr Self "appended_blocks_lsb")).

(** etsi/dmr_data_header.ksy:394 instance [dmr_data_header.data] *)
Definition I_DmrDataHeader_data : inst :=
  IAt "data" ETrue (EInt 0) None (TSized (EInt 12) (TSwitch (EAttr Self "data_packet_format")
      (CCons (KMember K_DmrDataHeader_DataPacketFormats "unified_data_transport") (TLocal T_DmrDataHeader_DataHeaderUdt)
      (CCons (KMember K_DmrDataHeader_DataPacketFormats "response_packet") (TLocal T_DmrDataHeader_DataHeaderResponse)
      (CCons (KMember K_DmrDataHeader_DataPacketFormats "data_packet_unconfirmed") (TLocal T_DmrDataHeader_DataHeaderUnconfirmed)
      (CCons (KMember K_DmrDataHeader_DataPacketFormats "data_packet_confirmed") (TLocal T_DmrDataHeader_DataHeaderConfirmed)
      (CCons (KMember K_DmrDataHeader_DataPacketFormats "short_data_defined") (TLocal T_DmrDataHeader_DataHeaderShortDefined)
      (CCons (KMember K_DmrDataHeader_DataPacketFormats "short_data_raw_or_status_or_precoded") (TLocal T_DmrDataHeader_DataHeaderShortStatusPrecoded)
      (CCons (KMember K_DmrDataHeader_DataPacketFormats "proprietary") (TLocal T_DmrDataHeader_DataHeaderProprietary)
      (CDefault (TLocal T_DmrDataHeader_DataHeaderUndefined))))))))))).

(** hytera/gpsdata.ksy:34 instance [gpsdata.gps_available] *)
Definition I_Gpsdata_gps_available : inst :=
  IValue "gps_available" (EEqS (EDecode (EAttr Self "gps_status") ASCII) "A").

(** hytera/ip_site_connect_protocol.ksy:45 instance [ip_site_connect_protocol.source_radio_id] *)
Definition I_IpSiteConnectProtocol_source_radio_id : inst :=
  IValue "source_radio_id" (EBin Shr (EAttr Self "source_radio_id_raw") (EInt 8)).

(** hytera/ip_site_connect_protocol.ksy:47 instance [ip_site_connect_protocol.destination_radio_id] *)
Definition I_IpSiteConnectProtocol_destination_radio_id : inst :=
  IValue "destination_radio_id" (EBin Shr (EAttr Self "destination_radio_id_raw") (EInt 8)).

(** hytera/ip_site_connect_protocol.ksy:49 instance [ip_site_connect_protocol.color_code] *)
Definition I_IpSiteConnectProtocol_color_code : inst :=
  IValue "color_code" (EBin BAnd (EAttr Self "color_code_raw") (EInt 15)).

(** hytera/ip_site_connect_protocol.ksy:51 instance [ip_site_connect_protocol.is_wakeup] *)
Definition I_IpSiteConnectProtocol_is_wakeup : inst :=
  IValue "is_wakeup" (EOr (EIs (EAttr Self "call_type") K_IpSiteConnectProtocol_CallTypes "wakeup_call_2") (EOr (EIs (EAttr Self "call_type") K_IpSiteConnectProtocol_CallTypes "wakeup_call_c") (EIs (EAttr Self "slot_type") K_IpSiteConnectProtocol_SlotTypes "slot_type_wakeup_request"))).

(** hytera/location_protocol.ksy:270 instance [location_protocol.opcode] *)
Definition I_LocationProtocol_opcode : inst :=
  IAt "opcode" ETrue (EInt 0) (Some K_LocationProtocol_LpGeneralTypes) (TInt U1).

(** hytera/radio_id.ksy:7 instance [radio_id.radio_id] *)
Definition I_RadioId_radio_id : inst :=
  IValue "radio_id" (EBin Shr (EAttr Self "radio_id_raw") (EInt 8)).

(** hytera/radio_ip.ksy:8 instance [radio_ip.radio_id] *)
Definition I_RadioIp_radio_id : inst :=
  IValue "radio_id" (EBin Add (EBin Add (EBin Shl (EAttr Self "radio_id_1") (EInt 16)) (EBin Shl (EAttr Self "radio_id_2") (EInt 8))) (EAttr Self "radio_id_3")).

(** hytera/radio_ip.ksy:10 instance [radio_ip.radio_ip] *)
Definition I_RadioIp_radio_ip : inst :=
  IValue "radio_ip" (ECat (ECat (ECat (ECat (ECat (ECat (EToS (EAttr Self "subnet")) (EText ".")) (EToS (EAttr Self "radio_id_1"))) (EText ".")) (EToS (EAttr Self "radio_id_2"))) (EText ".")) (EToS (EAttr Self "radio_id_3"))).

(** motorola/text_message_protocol.ksy:51 instance [text_message_protocol.tms_acknowledgement_header_sequence_number.sequence_number] *)
Definition I_MotTextMessageProtocol_TmsAcknowledgementHeaderSequenceNumber_sequence_number : inst :=
  IValue "sequence_number" (EBin Add (EBin Shl (EAttr Self "header_msb_bits") (EInt 4)) (EAttr Self "header_lsb_bits")).

(** motorola/text_message_protocol.ksy:51 instance [text_message_protocol.text_message_header_sequence_and_encoding.sequence_number] *)
Definition I_MotTextMessageProtocol_TextMessageHeaderSequenceAndEncoding_sequence_number : inst :=
  IValue "sequence_number" (EBin Add (EBin Shl (EAttr Self "sequence_number_msb_bits") (EInt 4)) (EAttr Self "sequence_number_lsb_bits")).
