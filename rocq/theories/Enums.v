(** The [enum.Enum] classes of the generated parsers (value, name) in source order;
    paths are relative to /repo/okdmr/kaitai. *)
From Verif Require Import PyBase.
Open Scope string_scope.
Open Scope list_scope.
Open Scope Z_scope.

(** * etsi/dmr_csbk.py *)

(** etsi/dmr_csbk.py:18-24 *)
Definition DmrCsbk_CsbkoTypes : enumdef := {| en_name := "DmrCsbk.CsbkoTypes"; en_members := [(4, "unit_to_unit_voice_service_request");
    (5, "unit_to_unit_voice_service_answer_response");
    (7, "channel_timing");
    (38, "negative_acknowledge_response");
    (56, "bs_outbound_activation_csbk_pdu");
    (61, "preamble")] |}.

(** etsi/dmr_csbk.py:26-28 *)
Definition DmrCsbk_CsbkDataOrCsbk : enumdef := {| en_name := "DmrCsbk.CsbkDataOrCsbk"; en_members := [(0, "csbk_content_follows_preambles");
    (1, "data_content_follows_preambles")] |}.

(** etsi/dmr_csbk.py:30-32 *)
Definition DmrCsbk_CsbkGroupOrIndividual : enumdef := {| en_name := "DmrCsbk.CsbkGroupOrIndividual"; en_members := [(0, "target_address_is_an_individual");
    (1, "target_address_is_a_group")] |}.

(** etsi/dmr_csbk.py:34-36 *)
Definition DmrCsbk_AnswerResponse : enumdef := {| en_name := "DmrCsbk.AnswerResponse"; en_members := [(32, "proceed");
    (33, "deny")] |}.

(** * etsi/dmr_data_header.py *)

(** etsi/dmr_data_header.py:18-29 *)
Definition DmrDataHeader_UdtFormats : enumdef := {| en_name := "DmrDataHeader.UdtFormats"; en_members := [(0, "binary");
    (1, "ms_or_tg_address");
    (2, "bcd_4bit");
    (3, "iso_7bit_coded_characters");
    (4, "iso_8bit_coded_characters");
    (5, "nmea_location_coded");
    (6, "ip_address");
    (7, "unicode_16bit_characters");
    (8, "manufacturer_specific");
    (9, "manufacturer_specific_2");
    (10, "mixed_address_and_16bit_utf16be_characters")] |}.

(** etsi/dmr_data_header.py:31-57 *)
Definition DmrDataHeader_CsbkMbcUdtOpcodes : enumdef := {| en_name := "DmrDataHeader.CsbkMbcUdtOpcodes"; en_members := [(25, "c_aloha");
    (26, "c_udthd");
    (27, "c_udthu");
    (28, "c_or_p_ahoy");
    (30, "c_ackvit");
    (31, "c_rand");
    (32, "c_ackd");
    (33, "c_acku");
    (34, "p_ackd");
    (35, "p_acku");
    (36, "c_dgnahd");
    (37, "c_dgnahu");
    (40, "c_bcast");
    (42, "p_maint");
    (46, "p_clear");
    (47, "p_protect");
    (48, "pv_grant");
    (49, "tv_grant");
    (50, "btv_grant");
    (51, "pd_grant");
    (52, "td_grant");
    (53, "pv_grant_dx");
    (54, "pd_grant_dx");
    (55, "pd_grant_mi");
    (56, "td_grant_mi");
    (57, "c_move")] |}.

(** etsi/dmr_data_header.py:59-66 *)
Definition DmrDataHeader_DataPacketFormats : enumdef := {| en_name := "DmrDataHeader.DataPacketFormats"; en_members := [(0, "unified_data_transport");
    (1, "response_packet");
    (2, "data_packet_unconfirmed");
    (3, "data_packet_confirmed");
    (13, "short_data_defined");
    (14, "short_data_raw_or_status_or_precoded");
    (15, "proprietary")] |}.

(** etsi/dmr_data_header.py:68-75 *)
Definition DmrDataHeader_SapIdentifiers : enumdef := {| en_name := "DmrDataHeader.SapIdentifiers"; en_members := [(0, "unified_data_transport");
    (2, "tcp_ip_header_compression");
    (3, "udp_ip_header_compression");
    (4, "ip_based_packet_data");
    (5, "arp_address_resolution_protocol");
    (9, "proprietary_packet_data");
    (10, "short_data")] |}.

(** etsi/dmr_data_header.py:77-102 *)
Definition DmrDataHeader_DefinedDataFormats : enumdef := {| en_name := "DmrDataHeader.DefinedDataFormats"; en_members := [(0, "binary");
    (1, "bcd");
    (2, "coding_7bit");
    (3, "coding_8bit_8859_1");
    (4, "coding_8bit_8859_2");
    (5, "coding_8bit_8859_3");
    (6, "coding_8bit_8859_4");
    (7, "coding_8bit_8859_5");
    (8, "coding_8bit_8859_6");
    (9, "coding_8bit_8859_7");
    (10, "coding_8bit_8859_8");
    (11, "coding_8bit_8859_9");
    (12, "coding_8bit_8859_10");
    (13, "coding_8bit_8859_11");
    (14, "coding_8bit_8859_13");
    (15, "coding_8bit_8859_14");
    (16, "coding_8bit_8859_15");
    (17, "coding_8bit_8859_16");
    (18, "unicode_utf8");
    (19, "unicode_utf16");
    (20, "unicode_utf16be");
    (21, "unicode_utf16le");
    (22, "unicode_utf32");
    (23, "unicode_utf32be");
    (24, "unicode_utf32le")] |}.

(** etsi/dmr_data_header.py:104-107 *)
Definition DmrDataHeader_ResponsePacketClasses : enumdef := {| en_name := "DmrDataHeader.ResponsePacketClasses"; en_members := [(0, "ack");
    (1, "nack");
    (2, "sack")] |}.

(** * etsi/dmr_ip_udp.py *)

(** etsi/dmr_ip_udp.py:18-20 *)
Definition DmrIpUdp_SourceIpAddressIds : enumdef := {| en_name := "DmrIpUdp.SourceIpAddressIds"; en_members := [(0, "radio_network");
    (1, "usb_ethernet_interface_network")] |}.

(** etsi/dmr_ip_udp.py:22-25 *)
Definition DmrIpUdp_DestinationIpAddressIds : enumdef := {| en_name := "DmrIpUdp.DestinationIpAddressIds"; en_members := [(0, "radio_network");
    (1, "usb_ethernet_interface_network");
    (2, "group_network")] |}.

(** etsi/dmr_ip_udp.py:27-30 *)
Definition DmrIpUdp_UdpPortIds : enumdef := {| en_name := "DmrIpUdp.UdpPortIds"; en_members := [(0, "present_in_extended_header");
    (1, "utf16be_text_message_port_5016");
    (2, "location_interface_protocol")] |}.

(** * etsi/full_link_control.py *)

(** etsi/full_link_control.py:18-25 *)
Definition FullLinkControl_Flcos : enumdef := {| en_name := "FullLinkControl.Flcos"; en_members := [(0, "group_voice");
    (3, "unit_to_unit_voice");
    (4, "talker_alias_header");
    (5, "talker_alias_block1");
    (6, "talker_alias_block2");
    (7, "talker_alias_block3");
    (8, "gps_info")] |}.

(** etsi/full_link_control.py:27-35 *)
Definition FullLinkControl_PositionErrors : enumdef := {| en_name := "FullLinkControl.PositionErrors"; en_members := [(0, "less_than_2m");
    (1, "less_than_20m");
    (2, "less_than_200m");
    (3, "less_than_2km");
    (4, "less_than_20km");
    (5, "less_than_or_equal_200km");
    (6, "more_than_200km");
    (7, "position_error_unknown_or_invalid")] |}.

(** etsi/full_link_control.py:37-41 *)
Definition FullLinkControl_TalkerDataFormats : enumdef := {| en_name := "FullLinkControl.TalkerDataFormats"; en_members := [(0, "coding_7bit");
    (1, "coding_8bit");
    (2, "unicode_utf8");
    (3, "unicode_utf16")] |}.

(** etsi/full_link_control.py:43-51 *)
Definition FullLinkControl_FeatureSetIds : enumdef := {| en_name := "FullLinkControl.FeatureSetIds"; en_members := [(0, "standardized_ts_102_361_2");
    (1, "reserved1");
    (2, "reserved2");
    (3, "reserved3");
    (4, "mfid_start");
    (127, "mfid_end");
    (128, "mfid_reserved_start");
    (255, "mfid_reserved_end")] |}.

(** * homebrew/homebrew2015.py *)

(** homebrew/homebrew2015.py:18-20 *)
Definition Homebrew2015_Timeslots : enumdef := {| en_name := "Homebrew2015.Timeslots"; en_members := [(0, "timeslot_1");
    (1, "timeslot_2")] |}.

(** homebrew/homebrew2015.py:22-24 *)
Definition Homebrew2015_CallTypes : enumdef := {| en_name := "Homebrew2015.CallTypes"; en_members := [(0, "group_call");
    (1, "private_call")] |}.

(** homebrew/homebrew2015.py:26-30 *)
Definition Homebrew2015_FrameTypes : enumdef := {| en_name := "Homebrew2015.FrameTypes"; en_members := [(0, "voice_data");
    (1, "voice_sync");
    (2, "data_or_data_sync");
    (3, "unused")] |}.

(** * homebrew/mmdvm2020.py *)

(** homebrew/mmdvm2020.py:18-22 *)
Definition Mmdvm2020_TalkerAliasTypes : enumdef := {| en_name := "Mmdvm2020.TalkerAliasTypes"; en_members := [(0, "talker_alias_header");
    (1, "talker_alias_block_1");
    (2, "talker_alias_block_2");
    (3, "talker_alias_block_3")] |}.

(** homebrew/mmdvm2020.py:24-28 *)
Definition Mmdvm2020_FrameTypes : enumdef := {| en_name := "Mmdvm2020.FrameTypes"; en_members := [(0, "voice_data");
    (1, "voice_sync");
    (2, "data_or_data_sync");
    (3, "unused")] |}.

(** homebrew/mmdvm2020.py:30-32 *)
Definition Mmdvm2020_CallTypes : enumdef := {| en_name := "Mmdvm2020.CallTypes"; en_members := [(0, "group_call");
    (1, "private_call")] |}.

(** homebrew/mmdvm2020.py:34-42 *)
Definition Mmdvm2020_PositionErrors : enumdef := {| en_name := "Mmdvm2020.PositionErrors"; en_members := [(0, "less_than_2m");
    (1, "less_than_20m");
    (2, "less_than_200m");
    (3, "less_than_2km");
    (4, "less_than_20km");
    (5, "less_than_or_equal_200km");
    (6, "more_than_200km");
    (7, "position_error_unknown_or_invalid")] |}.

(** homebrew/mmdvm2020.py:44-46 *)
Definition Mmdvm2020_Timeslots : enumdef := {| en_name := "Mmdvm2020.Timeslots"; en_members := [(0, "timeslot_1");
    (1, "timeslot_2")] |}.

(** * hytera/radio_registration_service.py *)

(** hytera/radio_registration_service.py:19-24 *)
Definition RadioRegistrationService_RrsTypes : enumdef := {| en_name := "RadioRegistrationService.RrsTypes"; en_members := [(1, "de_registration");
    (2, "online_check");
    (3, "registration");
    (128, "registration_ack");
    (130, "online_check_ack")] |}.

(** * hytera/data_delivery_states.py *)

(** hytera/data_delivery_states.py:19-23 *)
Definition DataDeliveryStates_StateTypes : enumdef := {| en_name := "DataDeliveryStates.StateTypes"; en_members := [(8, "location_protocol_state");
    (17, "radio_registration_service_state");
    (18, "telemetry_protocol_state");
    (19, "data_transmit_protocol_state")] |}.

(** hytera/data_delivery_states.py:25-34 *)
Definition DataDeliveryStates_Results : enumdef := {| en_name := "DataDeliveryStates.Results"; en_members := [(0, "ok");
    (1, "fail");
    (4, "limited_timeout");
    (5, "no_ack");
    (6, "error_ack");
    (7, "repeater_wakeup_fail");
    (8, "tx_interrupted");
    (9, "tx_deny");
    (10, "invalid_params")] |}.

(** * hytera/data_transmit_protocol.py *)

(** hytera/data_transmit_protocol.py:19-20 *)
Definition DataTransmitProtocol_ServiceTypes : enumdef := {| en_name := "DataTransmitProtocol.ServiceTypes"; en_members := [(160, "data_transmit_protocol")] |}.

(** hytera/data_transmit_protocol.py:22-28 *)
Definition DataTransmitProtocol_ServiceSpecificTypes : enumdef := {| en_name := "DataTransmitProtocol.ServiceSpecificTypes"; en_members := [(1, "dtp_request");
    (2, "data_slice_transmit");
    (3, "last_data_slice");
    (17, "dtp_answer");
    (18, "data_slice_answer");
    (19, "last_data_slice_answer")] |}.

(** hytera/data_transmit_protocol.py:30-32 *)
Definition DataTransmitProtocol_Results : enumdef := {| en_name := "DataTransmitProtocol.Results"; en_members := [(0, "success");
    (1, "failure")] |}.

(** * hytera/text_message_protocol.py *)

(** hytera/text_message_protocol.py:19-21 *)
Definition TextMessageProtocol_AckFlags : enumdef := {| en_name := "TextMessageProtocol.AckFlags"; en_members := [(0, "ack_required");
    (1, "ack_not_required")] |}.

(** hytera/text_message_protocol.py:23-25 *)
Definition TextMessageProtocol_OptionFlags : enumdef := {| en_name := "TextMessageProtocol.OptionFlags"; en_members := [(0, "option_len_and_field_disabled");
    (1, "option_len_and_field_enabled")] |}.

(** hytera/text_message_protocol.py:27-31 *)
Definition TextMessageProtocol_ServiceTypes : enumdef := {| en_name := "TextMessageProtocol.ServiceTypes"; en_members := [(161, "send_private_message");
    (162, "send_private_message_ack");
    (177, "send_group_message");
    (178, "send_group_message_ack")] |}.

(** hytera/text_message_protocol.py:33-45 *)
Definition TextMessageProtocol_ResultCodes : enumdef := {| en_name := "TextMessageProtocol.ResultCodes"; en_members := [(0, "ok");
    (1, "fail");
    (3, "invalid_params");
    (4, "channel_busy");
    (5, "rx_only");
    (6, "low_battery");
    (7, "pll_unlock");
    (8, "private_call_no_ack");
    (9, "repeater_wakeup_fail");
    (10, "no_contact");
    (11, "tx_deny");
    (12, "tx_interrupted")] |}.

(** * hytera/location_protocol.py *)

(** hytera/location_protocol.py:22-24 *)
Definition LocationProtocol_CmdTypes : enumdef := {| en_name := "LocationProtocol.CmdTypes"; en_members := [(0, "cancel_request");
    (1, "start_request")] |}.

(** hytera/location_protocol.py:26-44 *)
Definition LocationProtocol_LpSpecificTypes : enumdef := {| en_name := "LocationProtocol.LpSpecificTypes"; en_members := [(40961, "standard_request");
    (40962, "standard_answer");
    (40963, "standard_answer_with_rssi");
    (40964, "standard_answer_gps_bt");
    (45057, "emergency_report_stop_request");
    (45058, "emergency_report_stop_answer");
    (45059, "emergency_report");
    (49153, "triggered_report_request");
    (49154, "triggered_report_answer");
    (49155, "triggered_report");
    (49156, "triggered_report_stop_request");
    (49157, "triggered_report_stop_answer");
    (53249, "condition_report_request");
    (53250, "condition_report_answer");
    (53251, "condition_report");
    (53252, "condition_report_with_rssi");
    (53265, "condition_quick_gps_request");
    (53266, "condition_quick_gps_answer")] |}.

(** hytera/location_protocol.py:46-51 *)
Definition LocationProtocol_LpGeneralTypes : enumdef := {| en_name := "LocationProtocol.LpGeneralTypes"; en_members := [(160, "standard_location_immediate_service");
    (176, "emergency_location_reporting_service");
    (192, "triggered_location_reporting_service");
    (208, "condition_triggered_reporting_service");
    (224, "rssi_report_configuring_service")] |}.

(** hytera/location_protocol.py:53-58 *)
Definition LocationProtocol_TriggerTypes : enumdef := {| en_name := "LocationProtocol.TriggerTypes"; en_members := [(0, "cancel_request");
    (1, "distance");
    (2, "time");
    (3, "distance_and_time");
    (4, "distance_or_time")] |}.

(** hytera/location_protocol.py:60-63 *)
Definition LocationProtocol_ResultCodes : enumdef := {| en_name := "LocationProtocol.ResultCodes"; en_members := [(0, "ok");
    (6, "position_method_failure");
    (105, "request_format_error")] |}.

(** * hytera/telemetry_protocol.py *)

(** hytera/telemetry_protocol.py:19-21 *)
Definition TelemetryProtocol_ServiceTypes : enumdef := {| en_name := "TelemetryProtocol.ServiceTypes"; en_members := [(160, "status_report_service");
    (176, "remote_control_service")] |}.

(** hytera/telemetry_protocol.py:23-25 *)
Definition TelemetryProtocol_ResultTypes : enumdef := {| en_name := "TelemetryProtocol.ResultTypes"; en_members := [(0, "effective");
    (1, "ineffective")] |}.

(** hytera/telemetry_protocol.py:27-30 *)
Definition TelemetryProtocol_CallTypes : enumdef := {| en_name := "TelemetryProtocol.CallTypes"; en_members := [(0, "private_call");
    (1, "group_call");
    (2, "all_call")] |}.

(** hytera/telemetry_protocol.py:32-36 *)
Definition TelemetryProtocol_OperationTypes : enumdef := {| en_name := "TelemetryProtocol.OperationTypes"; en_members := [(0, "set_ineffective_level");
    (1, "set_effective_level");
    (2, "reverse_level");
    (3, "output_one_pulse")] |}.

(** hytera/telemetry_protocol.py:38-40 *)
Definition TelemetryProtocol_PcFlagTypes : enumdef := {| en_name := "TelemetryProtocol.PcFlagTypes"; en_members := [(0, "controller_is_radio");
    (1, "controller_is_telemetry_application")] |}.

(** hytera/telemetry_protocol.py:42-47 *)
Definition TelemetryProtocol_ServiceSpecificTypes : enumdef := {| en_name := "TelemetryProtocol.ServiceSpecificTypes"; en_members := [(40961, "standard_status_request");
    (41089, "standard_status_report");
    (41090, "extended_status_report");
    (45057, "remote_control_request");
    (45185, "remote_control_answer")] |}.

(** hytera/telemetry_protocol.py:49-51 *)
Definition TelemetryProtocol_ControlResultTypes : enumdef := {| en_name := "TelemetryProtocol.ControlResultTypes"; en_members := [(0, "success");
    (1, "failure")] |}.

(** * hytera/radio_control_protocol.py *)

(** hytera/radio_control_protocol.py:17-77 *)
Definition RadioControlProtocol_ServiceTypes : enumdef := {| en_name := "RadioControlProtocol.ServiceTypes"; en_members := [(4, "radio_identification_request");
    (65, "button_and_keyboard_operation_request");
    (67, "internal_external_mic_enable_disable_request");
    (68, "internal_external_mic_gain_check_control_request");
    (69, "internal_external_speaker_enable_disable_request");
    (70, "volume_check_control_request");
    (192, "radio_configure_over_air_request");
    (196, "zone_and_channel_operation_request");
    (202, "radio_connect_login_request");
    (203, "radio_connect_logout_request");
    (231, "channel_status_or_param_check_request");
    (237, "function_status_check_request");
    (238, "function_enable_disable_request");
    (305, "channel_alias_request");
    (513, "radio_message_query_request");
    (1104, "channel_number_of_zone_request");
    (1105, "update_authentication_key_request");
    (1106, "radio_id_and_radio_ip_query_request");
    (2099, "radio_check");
    (2100, "remote_monitor");
    (2101, "allert_call");
    (2113, "call_request");
    (2114, "remove_radio_request");
    (2118, "delete_subject_line_message_request");
    (2121, "radio_disable");
    (2122, "radio_enable");
    (4295, "radio_status_configure_request");
    (4297, "broadcast_status_configuration_request");
    (32833, "button_and_keyboard_operation_reply");
    (32835, "internal_external_mic_enable_disable_reply");
    (32836, "internal_external_mic_gain_check_control_reply");
    (32837, "internal_external_speaker_enable_disable_reply");
    (32838, "volume_check_control_reply");
    (32960, "radio_configure_over_air_reply");
    (32964, "zone_and_channel_operation_reply");
    (32967, "radio_status_configure_reply");
    (32969, "broadcast_status_configuration_reply");
    (32970, "radio_connect_login_reply");
    (32971, "radio_connect_logout_reply");
    (32999, "channel_status_or_param_check_reply");
    (33005, "function_status_check_reply");
    (33006, "function_enable_disable_reply");
    (33073, "channel_alias_reply");
    (33281, "radio_message_query_reply");
    (33492, "radio_identification_reply");
    (33872, "channel_number_of_zone_reply");
    (33873, "update_authentication_key_reply");
    (33874, "radio_id_and_radio_ip_query_reply");
    (34867, "radio_check_ack");
    (34868, "remote_monitor_ack");
    (34869, "alert_call_ack");
    (34881, "call_reply");
    (34882, "remove_radio_reply");
    (34886, "delete_subject_line_message_reply");
    (34889, "radio_disable_ack");
    (34890, "radio_enable_ack");
    (45256, "radio_status_report");
    (47171, "broadcast_transmit_status");
    (47173, "repeater_broadcast_transmit_status");
    (47428, "broadcast_receive_status")] |}.

(** hytera/radio_control_protocol.py:79-88 *)
Definition RadioControlProtocol_CallTypes : enumdef := {| en_name := "RadioControlProtocol.CallTypes"; en_members := [(0, "private_call");
    (1, "group_call");
    (2, "all_call");
    (3, "emergency_group_call");
    (4, "remote_monitor_call");
    (5, "reserved");
    (6, "priority_private_call");
    (7, "priority_group_call");
    (8, "priority_all_call")] |}.

(** hytera/radio_control_protocol.py:90-92 *)
Definition RadioControlProtocol_ReplyResults : enumdef := {| en_name := "RadioControlProtocol.ReplyResults"; en_members := [(0, "success");
    (1, "failure")] |}.

(** * hytera/hytera_dmr_application_protocol.py *)

(** hytera/hytera_dmr_application_protocol.py:25-32 *)
Definition HyteraDmrApplicationProtocol_MessageHeaderTypes : enumdef := {| en_name := "HyteraDmrApplicationProtocol.MessageHeaderTypes"; en_members := [(2, "radio_control_protocol");
    (8, "location_protocol");
    (9, "text_message_protocol");
    (17, "radio_registration");
    (18, "telemetry_protocol");
    (19, "data_transmit_protocol");
    (20, "data_delivery_states")] |}.

(** * hytera/hytera_radio_network_protocol.py *)

(** hytera/hytera_radio_network_protocol.py:19-26 *)
Definition HyteraRadioNetworkProtocol_Opcodes : enumdef := {| en_name := "HyteraRadioNetworkProtocol.Opcodes"; en_members := [(0, "data");
    (16, "data_ack");
    (250, "close_ack");
    (251, "close");
    (252, "reject");
    (253, "accept");
    (254, "connect")] |}.

(** * hytera/hytera_simple_transport_reliability_protocol.py *)

(** hytera/hytera_simple_transport_reliability_protocol.py:19-22 *)
Definition HyteraSimpleTransportReliabilityProtocol_OptionCommands : enumdef := {| en_name := "HyteraSimpleTransportReliabilityProtocol.OptionCommands"; en_members := [(1, "realtime");
    (3, "device_id");
    (4, "channel_id")] |}.

(** * hytera/ip_site_connect_protocol.py *)

(** hytera/ip_site_connect_protocol.py:18-22 *)
Definition IpSiteConnectProtocol_PacketTypes : enumdef := {| en_name := "IpSiteConnectProtocol.PacketTypes"; en_members := [(1, "pi_header");
    (65, "a");
    (66, "b");
    (67, "terminator")] |}.

(** hytera/ip_site_connect_protocol.py:24-30 *)
Definition IpSiteConnectProtocol_FrameTypes : enumdef := {| en_name := "IpSiteConnectProtocol.FrameTypes"; en_members := [(0, "frame_type_data");
    (4369, "frame_type_voice_sync");
    (13107, "frame_type_data_sync_or_csbk");
    (26214, "frame_type_data_header");
    (48059, "frame_type_voice");
    (61166, "frame_type_sync")] |}.

(** hytera/ip_site_connect_protocol.py:32-36 *)
Definition IpSiteConnectProtocol_CallTypes : enumdef := {| en_name := "IpSiteConnectProtocol.CallTypes"; en_members := [(0, "private_call");
    (1, "group_call");
    (2, "wakeup_call_2");
    (12, "wakeup_call_c")] |}.

(** hytera/ip_site_connect_protocol.py:38-53 *)
Definition IpSiteConnectProtocol_SlotTypes : enumdef := {| en_name := "IpSiteConnectProtocol.SlotTypes"; en_members := [(0, "slot_type_privacy_indicator");
    (4369, "slot_type_voice_lc_header");
    (8738, "slot_type_terminator_with_lc");
    (13107, "slot_type_csbk");
    (17476, "slot_type_data_header");
    (21845, "slot_type_rate_12_data");
    (26214, "slot_type_rate_34_data");
    (30583, "slot_type_data_a");
    (34952, "slot_type_data_b");
    (39321, "slot_type_data_c");
    (43690, "slot_type_data_d");
    (48059, "slot_type_data_e");
    (52428, "slot_type_data_f");
    (56797, "slot_type_wakeup_request");
    (61166, "slot_type_sync")] |}.

(** hytera/ip_site_connect_protocol.py:55-57 *)
Definition IpSiteConnectProtocol_Timeslots : enumdef := {| en_name := "IpSiteConnectProtocol.Timeslots"; en_members := [(4369, "timeslot_1");
    (8738, "timeslot_2")] |}.

(** * hytera/real_time_transport_protocol.py *)

(** hytera/real_time_transport_protocol.py:20-22 *)
Definition RealTimeTransportProtocol_RtpPayloadTypes : enumdef := {| en_name := "RealTimeTransportProtocol.RtpPayloadTypes"; en_members := [(0, "mu_law");
    (8, "a_law")] |}.

(** hytera/real_time_transport_protocol.py:24-27 *)
Definition RealTimeTransportProtocol_CallTypes : enumdef := {| en_name := "RealTimeTransportProtocol.CallTypes"; en_members := [(0, "private_call");
    (1, "group_call");
    (2, "all_call")] |}.

(** * motorola/automatic_registration_service.py *)

(** motorola/automatic_registration_service.py:17-19 *)
Definition AutomaticRegistrationService_RegistrationEvents : enumdef := {| en_name := "AutomaticRegistrationService.RegistrationEvents"; en_members := [(1, "initial_event");
    (2, "refresh_event")] |}.

(** motorola/automatic_registration_service.py:21-22 *)
Definition AutomaticRegistrationService_FailureReasons : enumdef := {| en_name := "AutomaticRegistrationService.FailureReasons"; en_members := [(0, "device_not_authorized")] |}.

(** * motorola/text_message_protocol.py *)

(** motorola/text_message_protocol.py:17-21 *)
Definition MotTextMessageProtocol_TmsServiceCapability : enumdef := {| en_name := "TextMessageProtocol.TmsServiceCapability"; en_members := [(0, "limited_capability");
    (1, "internal_capability");
    (2, "external_capability");
    (3, "full_capability")] |}.

(** * motorola/motorola_binary_xml.py *)

(** motorola/motorola_binary_xml.py:20-24 *)
Definition MotorolaBinaryXml_Docids : enumdef := {| en_name := "MotorolaBinaryXml.Docids"; en_members := [(4, "lrrp_immediate_request");
    (5, "lrrp_immediate_request_ncdt");
    (6, "lrrp_immediate_response");
    (7, "lrrp_immediate_response_ncdt")] |}.

(** motorola/motorola_binary_xml.py:26-29 *)
Definition MotorolaBinaryXml_LrrpElements : enumdef := {| en_name := "MotorolaBinaryXml.LrrpElements"; en_members := [(34, "request_id_22_opaque");
    (35, "request_id_23_opaque_1byte");
    (36, "request_id_24_cdt_reference")] |}.

