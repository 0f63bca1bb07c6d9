(** Specification of the ETSI package.  The tables list every field of a structure with its
    bit offset inside the structure; they were taken from the format descriptions
    (okdmr/kaitai/etsi/*.ksy), not from the Python code, and follow ETSI TS 102 361-1/-2. *)
From Verif Require Import PyBase Codec Spec Enums.
Open Scope string_scope.
Open Scope list_scope.
Open Scope Z_scope.

(** * etsi/dmr_csbk.ksy *)

(** dmr_csbk.ksy, type service_options; 8 bits *)
Definition L_DmrCsbk_ServiceOptions : list field := [
    F "is_emergency_service" 0 KFlag;
    F "privacy" 1 KFlag;
    F "reserved" 2 (U 2);
    F "is_broadcast_service" 4 KFlag;
    F "is_open_voice_call_mode" 5 KFlag;
    F "priority_level" 6 (U 2)].

(** dmr_csbk.ksy, type preamble_data; 64 bits *)
Definition L_DmrCsbk_PreambleData : list field := [
    F "preamble_data_or_csbk" 0 (Enm DmrCsbk_CsbkDataOrCsbk 1);
    F "group_or_individual" 1 (Enm DmrCsbk_CsbkGroupOrIndividual 1);
    F "preamble_reserved" 2 (U 6);
    F "preamble_csbk_blocks_to_follow" 8 (U 8);
    F "target_address" 16 (U 24);
    F "source_address" 40 (U 24)].

(** dmr_csbk.ksy, type bs_outbound_activation_data; 64 bits *)
Definition L_DmrCsbk_BsOutboundActivationData : list field := [
    F "reserved" 0 (U 16);
    F "bs_address" 16 (U 24);
    F "source_address" 40 (U 24)].

(** dmr_csbk.ksy, type unit_to_unit_voice_request_data; 64 bits *)
Definition L_DmrCsbk_UnitToUnitVoiceRequestData : list field := [
    F "service_options" 0 (KSub 8 (object "DmrCsbk.ServiceOptions" L_DmrCsbk_ServiceOptions));
    F "reserved" 8 (U 8);
    F "target_address" 16 (U 24);
    F "source_address" 40 (U 24)].

(** dmr_csbk.ksy, type unit_to_unit_voice_answer_data; 64 bits *)
Definition L_DmrCsbk_UnitToUnitVoiceAnswerData : list field := [
    F "service_options" 0 (KSub 8 (object "DmrCsbk.ServiceOptions" L_DmrCsbk_ServiceOptions));
    F "answer_response" 8 (Enm DmrCsbk_AnswerResponse 8);
    F "target_address" 16 (U 24);
    F "source_address" 40 (U 24)].

(** dmr_csbk.ksy, type negative_ack_response_data; 64 bits *)
Definition L_DmrCsbk_NegativeAckResponseData : list field := [
    F "additional_information_field" 0 KFlag;
    F "source_type" 1 KFlag;
    F "service_type" 2 (U 6);
    F "reason_code" 8 (U 8);
    F "source_address" 16 (U 24);
    F "target_address" 40 (U 24)].

(** dmr_csbk.ksy, type channel_timing_data; 64 bits *)
Definition L_DmrCsbk_ChannelTimingData : list field := [
    F "sync_age" 0 (U 11);
    F "generation" 11 (U 5);
    F "leader_identifier" 16 (U 20);
    F "new_leader" 36 KFlag;
    F "leader_dynamic_identifier" 37 (U 2);
    F "channel_timing_op1" 39 KFlag;
    F "source_identifier" 40 (U 20);
    F "reserved" 60 KFlag;
    F "source_dynamic_identifier" 61 (U 2);
    F "channel_timing_op0" 63 KFlag].


(** * etsi/dmr_data.ksy *)

(** dmr_data.ksy, type rate_34_confirmed; 144 bits *)
Definition L_DmrData_Rate34Confirmed : list field := [
    F "data_block_serial_number" 0 (U 7);
    F "crc9" 7 (U 9);
    F "user_data" 16 (KBytes 16)].

(** dmr_data.ksy, type rate_34_unconfirmed; 144 bits *)
Definition L_DmrData_Rate34Unconfirmed : list field := [
    F "user_data" 0 (KBytes 18)].

(** dmr_data.ksy, type rate_34_last_block_confirmed; 144 bits *)
Definition L_DmrData_Rate34LastBlockConfirmed : list field := [
    F "data_block_serial_number" 0 (U 7);
    F "crc9" 7 (U 9);
    F "user_data" 16 (KBytes 12);
    F "message_crc32" 112 (KBytes 4)].

(** dmr_data.ksy, type rate_34_last_block_unconfirmed; 144 bits *)
Definition L_DmrData_Rate34LastBlockUnconfirmed : list field := [
    F "user_data" 0 (KBytes 14);
    F "message_crc32" 112 (KBytes 4)].

(** dmr_data.ksy, type rate_12_confirmed; 96 bits *)
Definition L_DmrData_Rate12Confirmed : list field := [
    F "data_block_serial_number" 0 (U 7);
    F "crc9" 7 (U 9);
    F "user_data" 16 (KBytes 10)].

(** dmr_data.ksy, type rate_12_unconfirmed; 96 bits *)
Definition L_DmrData_Rate12Unconfirmed : list field := [
    F "user_data" 0 (KBytes 12)].

(** dmr_data.ksy, type rate_12_last_block_confirmed; 96 bits *)
Definition L_DmrData_Rate12LastBlockConfirmed : list field := [
    F "data_block_serial_number" 0 (U 7);
    F "crc9" 7 (U 9);
    F "user_data" 16 (KBytes 6);
    F "message_crc32" 64 (KBytes 4)].

(** dmr_data.ksy, type rate_12_last_block_unconfirmed; 96 bits *)
Definition L_DmrData_Rate12LastBlockUnconfirmed : list field := [
    F "user_data" 0 (KBytes 8);
    F "message_crc32" 64 (KBytes 4)].

(** dmr_data.ksy, type udt_last_block; 96 bits *)
Definition L_DmrData_UdtLastBlock : list field := [
    F "user_data" 0 (KBytes 10);
    F "message_crc16" 80 (KBytes 2)].

(** dmr_data.ksy, type rate_1_confirmed; 192 bits *)
Definition L_DmrData_Rate1Confirmed : list field := [
    F "data_block_serial_number" 0 (U 7);
    F "crc9" 7 (U 9);
    F "user_data" 16 (KBytes 22)].

(** dmr_data.ksy, type rate_1_unconfirmed; 192 bits *)
Definition L_DmrData_Rate1Unconfirmed : list field := [
    F "user_data" 0 (KBytes 24)].

(** dmr_data.ksy, type rate_1_last_block_confirmed; 192 bits *)
Definition L_DmrData_Rate1LastBlockConfirmed : list field := [
    F "data_block_serial_number" 0 (U 7);
    F "crc9" 7 (U 9);
    F "user_data" 16 (KBytes 18);
    F "message_crc32" 160 (KBytes 4)].

(** dmr_data.ksy, type rate_1_last_block_unconfirmed; 192 bits *)
Definition L_DmrData_Rate1LastBlockUnconfirmed : list field := [
    F "user_data" 0 (KBytes 20);
    F "message_crc32" 160 (KBytes 4)].

(** dmr_data.ksy, top level; 0 bits *)
Definition L_DmrData : list field := [
    ].


(** * etsi/dmr_data_header.ksy *)

(** dmr_data_header.ksy, type data_header_proprietary; 96 bits *)
Definition L_DmrDataHeader_DataHeaderProprietary : list field := [
    F "sap_identifier" 0 (Enm DmrDataHeader_SapIdentifiers 4);
    F "format" 4 (Enm DmrDataHeader_DataPacketFormats 4);
    F "mfid" 8 (U 8);
    F "proprietary_data" 16 (KBytes 8);
    F "crc" 80 (KBytes 2)].

(** dmr_data_header.ksy, type data_header_udt; 96 bits *)
Definition L_DmrDataHeader_DataHeaderUdt : list field := [
    F "llid_destination_is_group" 0 KFlag;
    F "response_requested" 1 KFlag;
    F "reserved1" 2 (U 2);
    F "format" 4 (Enm DmrDataHeader_DataPacketFormats 4);
    F "sap_identifier" 8 (Enm DmrDataHeader_SapIdentifiers 4);
    F "udt_format" 12 (Enm DmrDataHeader_UdtFormats 4);
    F "llid_destination" 16 (U 24);
    F "llid_source" 40 (U 24);
    F "pad_nibble" 64 (U 5);
    F "reserved2" 69 KFlag;
    F "appended_blocks" 70 (U 2);
    F "supplementary_flag" 72 KFlag;
    F "protect_flag" 73 KFlag;
    F "udt_opcode" 74 (Enm DmrDataHeader_CsbkMbcUdtOpcodes 6);
    F "crc" 80 (KBytes 2)].

(** dmr_data_header.ksy, type data_header_response; 96 bits *)
Definition L_DmrDataHeader_DataHeaderResponse : list field := [
    F "reserved1" 0 KFlag;
    F "response_requested" 1 KFlag;
    F "reserved2" 2 (U 2);
    F "format" 4 (Enm DmrDataHeader_DataPacketFormats 4);
    F "sap_identifier" 8 (Enm DmrDataHeader_SapIdentifiers 4);
    F "reserved3" 12 (U 4);
    F "llid_destination" 16 (U 24);
    F "llid_source" 40 (U 24);
    F "full_message_flag" 64 KFlag;
    F "blocks_to_follow" 65 (U 7);
    F "response_class" 72 (Enm DmrDataHeader_ResponsePacketClasses 2);
    F "response_type" 74 (U 3);
    F "response_status" 77 (U 3);
    F "crc" 80 (KBytes 2)].

(** dmr_data_header.ksy, type data_header_unconfirmed; 96 bits *)
Definition L_DmrDataHeader_DataHeaderUnconfirmed : list field := [
    F "llid_destination_is_group" 0 KFlag;
    F "response_requested" 1 KFlag;
    F "reserved1" 2 KFlag;
    F "pad_octet_count_msb" 3 KFlag;
    F "format" 4 (Enm DmrDataHeader_DataPacketFormats 4);
    F "sap_identifier" 8 (Enm DmrDataHeader_SapIdentifiers 4);
    F "pad_octet_count" 12 (U 4);
    F "llid_destination" 16 (U 24);
    F "llid_source" 40 (U 24);
    F "full_message_flag" 64 KFlag;
    F "blocks_to_follow" 65 (U 7);
    F "reserved2" 72 (U 4);
    F "fragment_sequence_number" 76 (U 4);
    F "crc" 80 (KBytes 2)].

(** dmr_data_header.ksy, type data_header_confirmed; 96 bits *)
Definition L_DmrDataHeader_DataHeaderConfirmed : list field := [
    F "llid_destination_is_group" 0 KFlag;
    F "response_requested" 1 KFlag;
    F "reserved1" 2 KFlag;
    F "pad_octet_count_msb" 3 KFlag;
    F "format" 4 (Enm DmrDataHeader_DataPacketFormats 4);
    F "sap_identifier" 8 (Enm DmrDataHeader_SapIdentifiers 4);
    F "pad_octet_count" 12 (U 4);
    F "llid_destination" 16 (U 24);
    F "llid_source" 40 (U 24);
    F "full_message_flag" 64 KFlag;
    F "blocks_to_follow" 65 (U 7);
    F "resynchronize_flag" 72 KFlag;
    F "send_sequence_number" 73 (U 3);
    F "fragment_sequence_number" 76 (U 4);
    F "crc" 80 (KBytes 2)].

(** dmr_data_header.ksy, type data_header_short_raw; 96 bits *)
Definition L_DmrDataHeader_DataHeaderShortRaw : list field := [
    F "llid_destination_is_group" 0 KFlag;
    F "response_requested" 1 KFlag;
    F "appended_blocks_msb" 2 (U 2);
    F "format" 4 (Enm DmrDataHeader_DataPacketFormats 4);
    F "sap_identifier" 8 (Enm DmrDataHeader_SapIdentifiers 4);
    F "appended_blocks_lsb" 12 (U 4);
    F "llid_destination" 16 (U 24);
    F "llid_source" 40 (U 24);
    F "source_port" 64 (U 3);
    F "destination_port" 67 (U 3);
    F "selective_automatic_repeat_request" 70 KFlag;
    F "full_message_flag" 71 KFlag;
    F "bit_padding" 72 (U 8);
    F "crc" 80 (KBytes 2)].

(** dmr_data_header.ksy, type data_header_short_defined; 96 bits *)
Definition L_DmrDataHeader_DataHeaderShortDefined : list field := [
    F "llid_destination_is_group" 0 KFlag;
    F "response_requested" 1 KFlag;
    F "appended_blocks_msb" 2 (U 2);
    F "format" 4 (Enm DmrDataHeader_DataPacketFormats 4);
    F "sap_identifier" 8 (Enm DmrDataHeader_SapIdentifiers 4);
    F "appended_blocks_lsb" 12 (U 4);
    F "llid_destination" 16 (U 24);
    F "llid_source" 40 (U 24);
    F "defined_data" 64 (Enm DmrDataHeader_DefinedDataFormats 6);
    F "selective_automatic_repeat_request" 70 KFlag;
    F "full_message_flag" 71 KFlag;
    F "bit_padding" 72 (U 8);
    F "crc" 80 (KBytes 2)].

(** dmr_data_header.ksy, type data_header_short_status_precoded; 96 bits *)
Definition L_DmrDataHeader_DataHeaderShortStatusPrecoded : list field := [
    F "llid_destination_is_group" 0 KFlag;
    F "response_requested" 1 KFlag;
    F "appended_blocks_msb" 2 (U 2);
    F "format" 4 (Enm DmrDataHeader_DataPacketFormats 4);
    F "sap_identifier" 8 (Enm DmrDataHeader_SapIdentifiers 4);
    F "appended_blocks_lsb" 12 (U 4);
    F "llid_destination" 16 (U 24);
    F "llid_source" 40 (U 24);
    F "source_port" 64 (U 3);
    F "destination_port" 67 (U 3);
    F "status_precoded" 70 (U 10);
    F "crc" 80 (KBytes 2)].

(** dmr_data_header.ksy, top level; 8 bits *)
Definition L_DmrDataHeader : list field := [
    F "skip4" 0 (U 4);
    F "data_packet_format" 4 (Enm DmrDataHeader_DataPacketFormats 4)].


(** * etsi/dmr_ip_udp.ksy *)

(** dmr_ip_udp.ksy, top level; 0 bits *)
Definition L_DmrIpUdp : list field := [
    ].


(** * etsi/full_link_control.ksy *)

(** full_link_control.ksy, type group_voice_channel_user; 56 bits *)
Definition L_FullLinkControl_GroupVoiceChannelUser : list field := [
    F "service_options" 0 (U 8);
    F "group_address" 8 (U 24);
    F "source_address" 32 (U 24)].

(** full_link_control.ksy, type unit_to_unit_voice_channel_user; 56 bits *)
Definition L_FullLinkControl_UnitToUnitVoiceChannelUser : list field := [
    F "service_options" 0 (U 8);
    F "target_address" 8 (U 24);
    F "source_address" 32 (U 24)].

(** full_link_control.ksy, type gps_info_lc_pdu; 56 bits *)
Definition L_FullLinkControl_GpsInfoLcPdu : list field := [
    F "reserved" 0 (U 4);
    F "position_error" 4 (Enm FullLinkControl_PositionErrors 3);
    F "longitude" 7 (U 25);
    F "latitude" 32 (U 24)].

(** full_link_control.ksy, type talker_alias_header; 56 bits *)
Definition L_FullLinkControl_TalkerAliasHeader : list field := [
    F "talker_alias_data_format" 0 (Enm FullLinkControl_TalkerDataFormats 2);
    F "talker_alias_data_length" 2 (U 5);
    F "talker_alias_data" 7 (U 49)].

(** full_link_control.ksy, type talker_alias_continuation; 56 bits *)
Definition L_FullLinkControl_TalkerAliasContinuation : list field := [
    F "talker_alias_data" 0 (U 56)].



(** * Control signalling block (TS 102 361-2, 7.1.2) *)

(** First two octets. *)
Definition L_csbk_header : list field := [
    F "last_block" 0 KFlag;
    F "protect_flag" 1 KFlag;
    F "csbk_opcode" 2 (Enm DmrCsbk_CsbkoTypes 6);
    F "feature_set_id" 8 (U 8)].

(** CSBKO -> content of octets 2..9 *)
Definition csbk_bodies : list (Z * (bytes -> Z -> res pyval)) := [
    (0x04, object "DmrCsbk.UnitToUnitVoiceRequestData" L_DmrCsbk_UnitToUnitVoiceRequestData);
    (0x05, object "DmrCsbk.UnitToUnitVoiceAnswerData" L_DmrCsbk_UnitToUnitVoiceAnswerData);
    (0x07, object "DmrCsbk.ChannelTimingData" L_DmrCsbk_ChannelTimingData);
    (0x26, object "DmrCsbk.NegativeAckResponseData" L_DmrCsbk_NegativeAckResponseData);
    (0x38, object "DmrCsbk.BsOutboundActivationData" L_DmrCsbk_BsOutboundActivationData);
    (0x3d, object "DmrCsbk.PreambleData" L_DmrCsbk_PreambleData)].

Definition csbk_spec (b : bytes) : res pyval :=
  let* h := fields b 0 L_csbk_header in
  let* d := optional "csbk_data" (select (ubits b 2 6) csbk_bodies) b 2 in
  Ok (VObj "DmrCsbk" (h ++ d)).

(** * Data header (TS 102 361-1, 9.2) *)
Definition data_header_bodies : list (Z * (bytes -> Z -> res pyval)) := [
    (0, object "DmrDataHeader.DataHeaderUdt" L_DmrDataHeader_DataHeaderUdt);
    (1, object "DmrDataHeader.DataHeaderResponse" L_DmrDataHeader_DataHeaderResponse);
    (2, object "DmrDataHeader.DataHeaderUnconfirmed" L_DmrDataHeader_DataHeaderUnconfirmed);
    (3, object "DmrDataHeader.DataHeaderConfirmed" L_DmrDataHeader_DataHeaderConfirmed);
    (13, object "DmrDataHeader.DataHeaderShortDefined" L_DmrDataHeader_DataHeaderShortDefined);
    (14, object "DmrDataHeader.DataHeaderShortStatusPrecoded" L_DmrDataHeader_DataHeaderShortStatusPrecoded);
    (15, object "DmrDataHeader.DataHeaderProprietary" L_DmrDataHeader_DataHeaderProprietary)].

(** The value of [.data]: the first 12 octets, decoded by the low nibble of octet 0. *)
Definition data_header_spec (b : bytes) : res pyval :=
  if blen b <? 12 then Err EOFError
  else match select (ubits b 4 4) data_header_bodies with
       | Some f => f (slice b 0 12) 0
       | None => Ok (VObj "DmrDataHeader.DataHeaderUndefined" [("bytedata", VBytes (slice b 0 12))])
       end.

(** * Compressed UDP/IPv4 header (TS 102 361-3, 5.9.2.2) *)
Definition L_udp_header : list field := [
    F "ipv4_identification" 0 (KBytes 2);
    F "source_ip_address_id" 16 (Enm DmrIpUdp_SourceIpAddressIds 4);
    F "destination_ip_address_id" 20 (Enm DmrIpUdp_DestinationIpAddressIds 4);
    F "header_compression_opcode_msb" 24 KFlag;
    F "udp_source_port_id" 25 (Enm DmrIpUdp_UdpPortIds 7);
    F "header_compression_opcode_lsb" 32 KFlag;
    F "udp_destination_port_id" 33 (Enm DmrIpUdp_UdpPortIds 7)].

Definition udp_spec (b : bytes) : res pyval :=
  let* h := fields b 0 L_udp_header in
  let src := ubits b 25 7 =? 0 in
  let dst := ubits b 33 7 =? 0 in
  let p1 := 5 in
  let* s := if src then fields b p1 [F "udp_source_port" 0 (KBytes 2)] else Ok [] in
  let p2 := if src then p1 + 2 else p1 in
  let* d := if dst then fields b p2 [F "udp_destination_port" 0 (KBytes 2)] else Ok [] in
  let p3 := if dst then p2 + 2 else p2 in
  Ok (VObj "DmrIpUdp.UdpIpv4CompressedHeader" (h ++ s ++ d ++ [("user_data", VBytes (rest b p3))])).

(** * Full link control (TS 102 361-1, 9.1.6; TS 102 361-2, 7.1.1) *)
Definition L_flc_header : list field := [
    F "protect_flag" 0 KFlag;
    F "reserved" 1 KFlag;
    F "full_link_control_opcode" 2 (Enm FullLinkControl_Flcos 6);
    F "feature_set_id" 8 (Enm FullLinkControl_FeatureSetIds 8)].

(** FLCO -> content of octets 2..8 *)
Definition flc_bodies : list (Z * (bytes -> Z -> res pyval)) := [
    (0, object "FullLinkControl.GroupVoiceChannelUser" L_FullLinkControl_GroupVoiceChannelUser);
    (3, object "FullLinkControl.UnitToUnitVoiceChannelUser" L_FullLinkControl_UnitToUnitVoiceChannelUser);
    (4, object "FullLinkControl.TalkerAliasHeader" L_FullLinkControl_TalkerAliasHeader);
    (5, object "FullLinkControl.TalkerAliasContinuation" L_FullLinkControl_TalkerAliasContinuation);
    (6, object "FullLinkControl.TalkerAliasContinuation" L_FullLinkControl_TalkerAliasContinuation);
    (7, object "FullLinkControl.TalkerAliasContinuation" L_FullLinkControl_TalkerAliasContinuation);
    (8, object "FullLinkControl.GpsInfoLcPdu" L_FullLinkControl_GpsInfoLcPdu)].

(** Header, content selected by the FLCO, then the checksums: [crc_checksum] iff three octets are left,
    [cs5_checksum] iff the whole LC has at most ten octets. *)
Definition flc_spec (b : bytes) : res pyval :=
  let* h := fields b 0 L_flc_header in
  let body := select (ubits b 2 6) flc_bodies in
  let* d := optional "specific_data" body b 2 in
  let p := match body with Some _ => 9 | None => 2 end in
  let crc := p + 3 <=? blen b in
  let p' := if crc then p + 3 else p in
  let* c5 := if blen b <=? 10 then fields b p' [F "cs5_checksum" 0 (U 5)] else Ok [] in
  Ok (VObj "FullLinkControl"
        (h ++ d ++ (if crc then [("crc_checksum", VBytes (slice b p 3))] else []) ++ c5)).
