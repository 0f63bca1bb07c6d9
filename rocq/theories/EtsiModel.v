(** Model of okdmr/kaitai/etsi: one definition per generated [_read] / property,
    statement by statement (paths are relative to /repo/okdmr/kaitai).
    [rt] is the installed kaitaistruct runtime. *)
From Verif Require Import PyBase Runtime Codec Enums Getters.
Open Scope string_scope.
Open Scope list_scope.
Open Scope Z_scope.

Section Etsi.
Context (rt : runtime).

(** * etsi/dmr_csbk.py *)

(** etsi/dmr_csbk.py:79-85 [DmrCsbk.NegativeAckResponseData._read] *)
Definition p_DmrCsbk_NegativeAckResponseData : M pyval := obj "DmrCsbk.NegativeAckResponseData" [
    ("additional_information_field", vflag);
    ("source_type", vflag);
    ("service_type", vbits 6);
    ("reason_code", vbits 8);
    ("source_address", vbits 24);
    ("target_address", vbits 24)].

(** etsi/dmr_csbk.py:107-113 [DmrCsbk.ServiceOptions._read] *)
Definition p_DmrCsbk_ServiceOptions : M pyval := obj "DmrCsbk.ServiceOptions" [
    ("is_emergency_service", vflag);
    ("privacy", vflag);
    ("reserved", vbits 2);
    ("is_broadcast_service", vflag);
    ("is_open_voice_call_mode", vflag);
    ("priority_level", vbits 2)].

(** etsi/dmr_csbk.py:94-98 [DmrCsbk.UnitToUnitVoiceRequestData._read] *)
Definition p_DmrCsbk_UnitToUnitVoiceRequestData : M pyval := obj "DmrCsbk.UnitToUnitVoiceRequestData" [
    ("service_options", p_DmrCsbk_ServiceOptions);
    ("reserved", vbits 8);
    ("target_address", vbits 24);
    ("source_address", vbits 24)].

(** etsi/dmr_csbk.py:122-132 [DmrCsbk.PreambleData._read] *)
Definition p_DmrCsbk_PreambleData : M pyval := obj "DmrCsbk.PreambleData" [
    ("preamble_data_or_csbk", venum DmrCsbk_CsbkDataOrCsbk (read_bits 1));
    ("group_or_individual", venum DmrCsbk_CsbkGroupOrIndividual (read_bits 1));
    ("preamble_reserved", vbits 6);
    ("preamble_csbk_blocks_to_follow", vbits 8);
    ("target_address", vbits 24);
    ("source_address", vbits 24)].

(** etsi/dmr_csbk.py:141-151 [DmrCsbk.ChannelTimingData._read] *)
Definition p_DmrCsbk_ChannelTimingData : M pyval := obj "DmrCsbk.ChannelTimingData" [
    ("sync_age", vbits 11);
    ("generation", vbits 5);
    ("leader_identifier", vbits 20);
    ("new_leader", vflag);
    ("leader_dynamic_identifier", vbits 2);
    ("channel_timing_op1", vflag);
    ("source_identifier", vbits 20);
    ("reserved", vflag);
    ("source_dynamic_identifier", vbits 2);
    ("channel_timing_op0", vflag)].

(** etsi/dmr_csbk.py:160-163 [DmrCsbk.BsOutboundActivationData._read] *)
Definition p_DmrCsbk_BsOutboundActivationData : M pyval := obj "DmrCsbk.BsOutboundActivationData" [
    ("reserved", vbits 16);
    ("bs_address", vbits 24);
    ("source_address", vbits 24)].

(** etsi/dmr_csbk.py:172-178 [DmrCsbk.UnitToUnitVoiceAnswerData._read] *)
Definition p_DmrCsbk_UnitToUnitVoiceAnswerData : M pyval := obj "DmrCsbk.UnitToUnitVoiceAnswerData" [
    ("service_options", p_DmrCsbk_ServiceOptions);
    ("answer_response", venum DmrCsbk_AnswerResponse (read_bits 8));
    ("target_address", vbits 24);
    ("source_address", vbits 24)].

(** etsi/dmr_csbk.py:44-70 [DmrCsbk._read] *)
Definition p_DmrCsbk : M pyval :=
    last_block <- read_flag;;
    protect_flag <- read_flag;;
    csbk_opcode <- venum DmrCsbk_CsbkoTypes (read_bits 6);;
    feature_set_id <- read_bits 8;;
    align_to_byte;;;
    csbk_data <- (if eq_member DmrCsbk_CsbkoTypes "unit_to_unit_voice_service_answer_response" csbk_opcode then some (p_DmrCsbk_UnitToUnitVoiceAnswerData)
        else if eq_member DmrCsbk_CsbkoTypes "preamble" csbk_opcode then some (p_DmrCsbk_PreambleData)
        else if eq_member DmrCsbk_CsbkoTypes "channel_timing" csbk_opcode then some (p_DmrCsbk_ChannelTimingData)
        else if eq_member DmrCsbk_CsbkoTypes "unit_to_unit_voice_service_request" csbk_opcode then some (p_DmrCsbk_UnitToUnitVoiceRequestData)
        else if eq_member DmrCsbk_CsbkoTypes "bs_outbound_activation_csbk_pdu" csbk_opcode then some (p_DmrCsbk_BsOutboundActivationData)
        else if eq_member DmrCsbk_CsbkoTypes "negative_acknowledge_response" csbk_opcode then some (p_DmrCsbk_NegativeAckResponseData)
        else none);;
    ret (VObj "DmrCsbk" ([("last_block", VBool last_block); ("protect_flag", VBool protect_flag); ("csbk_opcode", csbk_opcode); ("feature_set_id", VInt feature_set_id)] ++ opt "csbk_data" csbk_data)).

(** * etsi/dmr_data.py *)

(** etsi/dmr_data.py:35-37 [DmrData.Rate1LastBlockUnconfirmed._read] *)
Definition p_DmrData_Rate1LastBlockUnconfirmed : M pyval := obj "DmrData.Rate1LastBlockUnconfirmed" [
    ("user_data", vbytes rt 20);
    ("message_crc32", vbytes rt 4)].

(** etsi/dmr_data.py:48-53 [DmrData.Rate12LastBlockConfirmed._read] *)
Definition p_DmrData_Rate12LastBlockConfirmed : M pyval := obj "DmrData.Rate12LastBlockConfirmed" [
    ("data_block_serial_number", vbits 7);
    ("crc9", vbits 9);
    ("user_data", aligned (vbytes rt 6));
    ("message_crc32", vbytes rt 4)].

(** etsi/dmr_data.py:64-68 [DmrData.Rate12Confirmed._read] *)
Definition p_DmrData_Rate12Confirmed : M pyval := obj "DmrData.Rate12Confirmed" [
    ("data_block_serial_number", vbits 7);
    ("crc9", vbits 9);
    ("user_data", aligned (vbytes rt 10))].

(** etsi/dmr_data.py:79-81 [DmrData.Rate34LastBlockUnconfirmed._read] *)
Definition p_DmrData_Rate34LastBlockUnconfirmed : M pyval := obj "DmrData.Rate34LastBlockUnconfirmed" [
    ("user_data", vbytes rt 14);
    ("message_crc32", vbytes rt 4)].

(** etsi/dmr_data.py:92-97 [DmrData.Rate1LastBlockConfirmed._read] *)
Definition p_DmrData_Rate1LastBlockConfirmed : M pyval := obj "DmrData.Rate1LastBlockConfirmed" [
    ("data_block_serial_number", vbits 7);
    ("crc9", vbits 9);
    ("user_data", aligned (vbytes rt 18));
    ("message_crc32", vbytes rt 4)].

(** etsi/dmr_data.py:108-109 [DmrData.Rate1Unconfirmed._read] *)
Definition p_DmrData_Rate1Unconfirmed : M pyval := obj "DmrData.Rate1Unconfirmed" [
    ("user_data", vbytes rt 24)].

(** etsi/dmr_data.py:120-122 [DmrData.UdtLastBlock._read] *)
Definition p_DmrData_UdtLastBlock : M pyval := obj "DmrData.UdtLastBlock" [
    ("user_data", vbytes rt 10);
    ("message_crc16", vbytes rt 2)].

(** etsi/dmr_data.py:133-137 [DmrData.Rate34Confirmed._read] *)
Definition p_DmrData_Rate34Confirmed : M pyval := obj "DmrData.Rate34Confirmed" [
    ("data_block_serial_number", vbits 7);
    ("crc9", vbits 9);
    ("user_data", aligned (vbytes rt 16))].

(** etsi/dmr_data.py:148-153 [DmrData.Rate34LastBlockConfirmed._read] *)
Definition p_DmrData_Rate34LastBlockConfirmed : M pyval := obj "DmrData.Rate34LastBlockConfirmed" [
    ("data_block_serial_number", vbits 7);
    ("crc9", vbits 9);
    ("user_data", aligned (vbytes rt 12));
    ("message_crc32", vbytes rt 4)].

(** etsi/dmr_data.py:164-165 [DmrData.Rate34Unconfirmed._read] *)
Definition p_DmrData_Rate34Unconfirmed : M pyval := obj "DmrData.Rate34Unconfirmed" [
    ("user_data", vbytes rt 18)].

(** etsi/dmr_data.py:176-178 [DmrData.Rate12LastBlockUnconfirmed._read] *)
Definition p_DmrData_Rate12LastBlockUnconfirmed : M pyval := obj "DmrData.Rate12LastBlockUnconfirmed" [
    ("user_data", vbytes rt 8);
    ("message_crc32", vbytes rt 4)].

(** etsi/dmr_data.py:189-193 [DmrData.Rate1Confirmed._read] *)
Definition p_DmrData_Rate1Confirmed : M pyval := obj "DmrData.Rate1Confirmed" [
    ("data_block_serial_number", vbits 7);
    ("crc9", vbits 9);
    ("user_data", aligned (vbytes rt 22))].

(** etsi/dmr_data.py:204-205 [DmrData.Rate12Unconfirmed._read] *)
Definition p_DmrData_Rate12Unconfirmed : M pyval := obj "DmrData.Rate12Unconfirmed" [
    ("user_data", vbytes rt 12)].

(** etsi/dmr_data.py:23-24 [DmrData._read] *)
Definition p_DmrData : M pyval := obj "DmrData" [].

(** * etsi/dmr_data_header.py *)

(** etsi/dmr_data_header.py:130-149 [DmrDataHeader.DataHeaderShortRaw._read] *)
Definition p_DmrDataHeader_DataHeaderShortRaw : M pyval := obj "DmrDataHeader.DataHeaderShortRaw" [
    ("llid_destination_is_group", vflag);
    ("response_requested", vflag);
    ("appended_blocks_msb", vbits 2);
    ("format", venum DmrDataHeader_DataPacketFormats (read_bits 4));
    ("sap_identifier", venum DmrDataHeader_SapIdentifiers (read_bits 4));
    ("appended_blocks_lsb", vbits 4);
    ("llid_destination", vbits 24);
    ("llid_source", vbits 24);
    ("source_port", vbits 3);
    ("destination_port", vbits 3);
    ("selective_automatic_repeat_request", vflag);
    ("full_message_flag", vflag);
    ("bit_padding", vbits 8);
    ("crc", aligned (vbytes rt 2))].

(** etsi/dmr_data_header.py:152-159, 221-228, 355-362: the property [appended_blocks] (the same body in
    DataHeaderShortRaw, DataHeaderShortStatusPrecoded and DataHeaderShortDefined); the memo
    attribute is handled by [memo] in Getters.v. *)
Definition appended_blocks (o : live) : res pyval * live :=
  memo "appended_blocks" (fun a =>
    msb <- stored_int "appended_blocks_msb" a;;
    lsb <- stored_int "appended_blocks_lsb" a;;
    ret (VInt (Z.shiftl msb 4 + lsb))) o.

(** etsi/dmr_data_header.py:170-180 [DmrDataHeader.DataHeaderProprietary._read] *)
Definition p_DmrDataHeader_DataHeaderProprietary : M pyval := obj "DmrDataHeader.DataHeaderProprietary" [
    ("sap_identifier", venum DmrDataHeader_SapIdentifiers (read_bits 4));
    ("format", venum DmrDataHeader_DataPacketFormats (read_bits 4));
    ("mfid", vbits 8);
    ("proprietary_data", aligned (vbytes rt 8));
    ("crc", vbytes rt 2)].

(** etsi/dmr_data_header.py:189-190 [DmrDataHeader.DataHeaderUndefined._read] *)
Definition p_DmrDataHeader_DataHeaderUndefined : M pyval := obj "DmrDataHeader.DataHeaderUndefined" [
    ("bytedata", vfull rt)].

(** etsi/dmr_data_header.py:201-218 [DmrDataHeader.DataHeaderShortStatusPrecoded._read] *)
Definition p_DmrDataHeader_DataHeaderShortStatusPrecoded : M pyval := obj "DmrDataHeader.DataHeaderShortStatusPrecoded" [
    ("llid_destination_is_group", vflag);
    ("response_requested", vflag);
    ("appended_blocks_msb", vbits 2);
    ("format", venum DmrDataHeader_DataPacketFormats (read_bits 4));
    ("sap_identifier", venum DmrDataHeader_SapIdentifiers (read_bits 4));
    ("appended_blocks_lsb", vbits 4);
    ("llid_destination", vbits 24);
    ("llid_source", vbits 24);
    ("source_port", vbits 3);
    ("destination_port", vbits 3);
    ("status_precoded", vbits 10);
    ("crc", aligned (vbytes rt 2))].


(** etsi/dmr_data_header.py:239-260 [DmrDataHeader.DataHeaderResponse._read] *)
Definition p_DmrDataHeader_DataHeaderResponse : M pyval := obj "DmrDataHeader.DataHeaderResponse" [
    ("reserved1", vflag);
    ("response_requested", vflag);
    ("reserved2", vbits 2);
    ("format", venum DmrDataHeader_DataPacketFormats (read_bits 4));
    ("sap_identifier", venum DmrDataHeader_SapIdentifiers (read_bits 4));
    ("reserved3", vbits 4);
    ("llid_destination", vbits 24);
    ("llid_source", vbits 24);
    ("full_message_flag", vflag);
    ("blocks_to_follow", vbits 7);
    ("response_class", venum DmrDataHeader_ResponsePacketClasses (read_bits 2));
    ("response_type", vbits 3);
    ("response_status", vbits 3);
    ("crc", aligned (vbytes rt 2))].

(** etsi/dmr_data_header.py:271-291 [DmrDataHeader.DataHeaderConfirmed._read] *)
Definition p_DmrDataHeader_DataHeaderConfirmed : M pyval := obj "DmrDataHeader.DataHeaderConfirmed" [
    ("llid_destination_is_group", vflag);
    ("response_requested", vflag);
    ("reserved1", vflag);
    ("pad_octet_count_msb", vflag);
    ("format", venum DmrDataHeader_DataPacketFormats (read_bits 4));
    ("sap_identifier", venum DmrDataHeader_SapIdentifiers (read_bits 4));
    ("pad_octet_count", vbits 4);
    ("llid_destination", vbits 24);
    ("llid_source", vbits 24);
    ("full_message_flag", vflag);
    ("blocks_to_follow", vbits 7);
    ("resynchronize_flag", vflag);
    ("send_sequence_number", vbits 3);
    ("fragment_sequence_number", vbits 4);
    ("crc", aligned (vbytes rt 2))].

(** etsi/dmr_data_header.py:302-321 [DmrDataHeader.DataHeaderUnconfirmed._read] *)
Definition p_DmrDataHeader_DataHeaderUnconfirmed : M pyval := obj "DmrDataHeader.DataHeaderUnconfirmed" [
    ("llid_destination_is_group", vflag);
    ("response_requested", vflag);
    ("reserved1", vflag);
    ("pad_octet_count_msb", vflag);
    ("format", venum DmrDataHeader_DataPacketFormats (read_bits 4));
    ("sap_identifier", venum DmrDataHeader_SapIdentifiers (read_bits 4));
    ("pad_octet_count", vbits 4);
    ("llid_destination", vbits 24);
    ("llid_source", vbits 24);
    ("full_message_flag", vflag);
    ("blocks_to_follow", vbits 7);
    ("reserved2", vbits 4);
    ("fragment_sequence_number", vbits 4);
    ("crc", aligned (vbytes rt 2))].

(** etsi/dmr_data_header.py:332-352 [DmrDataHeader.DataHeaderShortDefined._read] *)
Definition p_DmrDataHeader_DataHeaderShortDefined : M pyval := obj "DmrDataHeader.DataHeaderShortDefined" [
    ("llid_destination_is_group", vflag);
    ("response_requested", vflag);
    ("appended_blocks_msb", vbits 2);
    ("format", venum DmrDataHeader_DataPacketFormats (read_bits 4));
    ("sap_identifier", venum DmrDataHeader_SapIdentifiers (read_bits 4));
    ("appended_blocks_lsb", vbits 4);
    ("llid_destination", vbits 24);
    ("llid_source", vbits 24);
    ("defined_data", venum DmrDataHeader_DefinedDataFormats (read_bits 6));
    ("selective_automatic_repeat_request", vflag);
    ("full_message_flag", vflag);
    ("bit_padding", vbits 8);
    ("crc", aligned (vbytes rt 2))].


(** etsi/dmr_data_header.py:373-397 [DmrDataHeader.DataHeaderUdt._read] *)
Definition p_DmrDataHeader_DataHeaderUdt : M pyval := obj "DmrDataHeader.DataHeaderUdt" [
    ("llid_destination_is_group", vflag);
    ("response_requested", vflag);
    ("reserved1", vbits 2);
    ("format", venum DmrDataHeader_DataPacketFormats (read_bits 4));
    ("sap_identifier", venum DmrDataHeader_SapIdentifiers (read_bits 4));
    ("udt_format", venum DmrDataHeader_UdtFormats (read_bits 4));
    ("llid_destination", vbits 24);
    ("llid_source", vbits 24);
    ("pad_nibble", vbits 5);
    ("reserved2", vflag);
    ("appended_blocks", vbits 2);
    ("supplementary_flag", vflag);
    ("protect_flag", vflag);
    ("udt_opcode", venum DmrDataHeader_CsbkMbcUdtOpcodes (read_bits 6));
    ("crc", aligned (vbytes rt 2))].

(** etsi/dmr_data_header.py:115-119 [DmrDataHeader._read] *)
Definition p_DmrDataHeader : M pyval := obj "DmrDataHeader" [
    ("skip4", vbits 4);
    ("data_packet_format", venum DmrDataHeader_DataPacketFormats (read_bits 4))].

(** etsi/dmr_data_header.py:400-459 [DmrDataHeader.data], the selected body class; every branch reads 12 bytes
    and parses them as a separate stream *)
Definition data_header_body (data_packet_format : pyval) : M pyval :=
  if eq_member DmrDataHeader_DataPacketFormats "proprietary" data_packet_format then p_DmrDataHeader_DataHeaderProprietary
  else if eq_member DmrDataHeader_DataPacketFormats "short_data_defined" data_packet_format then p_DmrDataHeader_DataHeaderShortDefined
  else if eq_member DmrDataHeader_DataPacketFormats "data_packet_unconfirmed" data_packet_format then p_DmrDataHeader_DataHeaderUnconfirmed
  else if eq_member DmrDataHeader_DataPacketFormats "data_packet_confirmed" data_packet_format then p_DmrDataHeader_DataHeaderConfirmed
  else if eq_member DmrDataHeader_DataPacketFormats "unified_data_transport" data_packet_format then p_DmrDataHeader_DataHeaderUdt
  else if eq_member DmrDataHeader_DataPacketFormats "short_data_raw_or_status_or_precoded" data_packet_format then p_DmrDataHeader_DataHeaderShortStatusPrecoded
  else if eq_member DmrDataHeader_DataPacketFormats "response_packet" data_packet_format then p_DmrDataHeader_DataHeaderResponse
  else p_DmrDataHeader_DataHeaderUndefined.

(** etsi/dmr_data_header.py:400-459 [DmrDataHeader.data], the computation behind the memo test:
    save the position, seek 0, read 12 bytes, parse them, seek back.  (The attribute [_raw__m_data] that
    keeps the 12 bytes is not modelled.) *)
Definition data_header_compute (data_packet_format : pyval) : M pyval :=
  pos_ <- io_pos;;
  io_seek rt 0;;;
  raw <- read_bytes rt 12;;
  v <- lift (from_bytes (data_header_body data_packet_format) raw);;
  io_seek rt pos_;;;
  ret v.

(** etsi/dmr_data_header.py:400-459 [DmrDataHeader.data] *)
Definition DmrDataHeader_data (o : live) : res pyval * live :=
  memo "data" (fun a => f <- stored "data_packet_format" a;; data_header_compute f) o.

(** * etsi/dmr_ip_udp.py *)

(** etsi/dmr_ip_udp.py:50-79 [DmrIpUdp.UdpIpv4CompressedHeader._read] *)
Definition p_DmrIpUdp_UdpIpv4CompressedHeader : M pyval :=
    ipv4_identification <- read_bytes rt 2;;
    source_ip_address_id <- venum DmrIpUdp_SourceIpAddressIds (read_bits 4);;
    destination_ip_address_id <- venum DmrIpUdp_DestinationIpAddressIds (read_bits 4);;
    header_compression_opcode_msb <- read_flag;;
    udp_source_port_id <- venum DmrIpUdp_UdpPortIds (read_bits 7);;
    header_compression_opcode_lsb <- read_flag;;
    udp_destination_port_id <- venum DmrIpUdp_UdpPortIds (read_bits 7);;
    align_to_byte;;;
    udp_source_port <- (if eq_member DmrIpUdp_UdpPortIds "present_in_extended_header" udp_source_port_id then some (vbytes rt 2)
        else none);;
    udp_destination_port <- (if eq_member DmrIpUdp_UdpPortIds "present_in_extended_header" udp_destination_port_id then some (vbytes rt 2)
        else none);;
    user_data <- read_bytes_full rt;;
    ret (VObj "DmrIpUdp.UdpIpv4CompressedHeader" ([("ipv4_identification", VBytes ipv4_identification); ("source_ip_address_id", source_ip_address_id); ("destination_ip_address_id", destination_ip_address_id); ("header_compression_opcode_msb", VBool header_compression_opcode_msb); ("udp_source_port_id", udp_source_port_id); ("header_compression_opcode_lsb", VBool header_compression_opcode_lsb); ("udp_destination_port_id", udp_destination_port_id)] ++ opt "udp_source_port" udp_source_port ++ opt "udp_destination_port" udp_destination_port ++ [("user_data", VBytes user_data)])).

(** etsi/dmr_ip_udp.py:38-39 [DmrIpUdp._read] *)
Definition p_DmrIpUdp : M pyval := obj "DmrIpUdp" [].

(** * etsi/full_link_control.py *)

(** etsi/full_link_control.py:111-117 [FullLinkControl.GpsInfoLcPdu._read] *)
Definition p_FullLinkControl_GpsInfoLcPdu : M pyval := obj "FullLinkControl.GpsInfoLcPdu" [
    ("reserved", vbits 4);
    ("position_error", venum FullLinkControl_PositionErrors (read_bits 3));
    ("longitude", vbits 25);
    ("latitude", vbits 24)].

(** etsi/full_link_control.py:126-129 [FullLinkControl.GroupVoiceChannelUser._read] *)
Definition p_FullLinkControl_GroupVoiceChannelUser : M pyval := obj "FullLinkControl.GroupVoiceChannelUser" [
    ("service_options", vbits 8);
    ("group_address", vbits 24);
    ("source_address", vbits 24)].

(** etsi/full_link_control.py:138-141 [FullLinkControl.UnitToUnitVoiceChannelUser._read] *)
Definition p_FullLinkControl_UnitToUnitVoiceChannelUser : M pyval := obj "FullLinkControl.UnitToUnitVoiceChannelUser" [
    ("service_options", vbits 8);
    ("target_address", vbits 24);
    ("source_address", vbits 24)].

(** etsi/full_link_control.py:150-155 [FullLinkControl.TalkerAliasHeader._read] *)
Definition p_FullLinkControl_TalkerAliasHeader : M pyval := obj "FullLinkControl.TalkerAliasHeader" [
    ("talker_alias_data_format", venum FullLinkControl_TalkerDataFormats (read_bits 2));
    ("talker_alias_data_length", vbits 5);
    ("talker_alias_data", vbits 49)].

(** etsi/full_link_control.py:164-165 [FullLinkControl.TalkerAliasContinuation._read] *)
Definition p_FullLinkControl_TalkerAliasContinuation : M pyval := obj "FullLinkControl.TalkerAliasContinuation" [
    ("talker_alias_data", vbits 56)].

(** etsi/full_link_control.py:59-102 [FullLinkControl._read] *)
Definition p_FullLinkControl : M pyval :=
    protect_flag <- read_flag;;
    reserved <- read_flag;;
    full_link_control_opcode <- venum FullLinkControl_Flcos (read_bits 6);;
    feature_set_id <- venum FullLinkControl_FeatureSetIds (read_bits 8);;
    align_to_byte;;;
    specific_data <- (if eq_member FullLinkControl_Flcos "talker_alias_header" full_link_control_opcode then some (p_FullLinkControl_TalkerAliasHeader)
        else if eq_member FullLinkControl_Flcos "unit_to_unit_voice" full_link_control_opcode then some (p_FullLinkControl_UnitToUnitVoiceChannelUser)
        else if eq_member FullLinkControl_Flcos "group_voice" full_link_control_opcode then some (p_FullLinkControl_GroupVoiceChannelUser)
        else if eq_member FullLinkControl_Flcos "talker_alias_block3" full_link_control_opcode then some (p_FullLinkControl_TalkerAliasContinuation)
        else if eq_member FullLinkControl_Flcos "talker_alias_block1" full_link_control_opcode then some (p_FullLinkControl_TalkerAliasContinuation)
        else if eq_member FullLinkControl_Flcos "talker_alias_block2" full_link_control_opcode then some (p_FullLinkControl_TalkerAliasContinuation)
        else if eq_member FullLinkControl_Flcos "gps_info" full_link_control_opcode then some (p_FullLinkControl_GpsInfoLcPdu)
        else none);;
    size1 <- io_size;;
    pos1 <- io_pos;;
    crc_checksum <- (if size1 - pos1 >=? 3 then some (vbytes rt 3) else none);;
    size2 <- io_size;;
    cs5_checksum <- (if size2 <=? 10 then some (vbits 5) else none);;
    ret (VObj "FullLinkControl" ([("protect_flag", VBool protect_flag); ("reserved", VBool reserved); ("full_link_control_opcode", full_link_control_opcode); ("feature_set_id", feature_set_id)] ++ opt "specific_data" specific_data ++ opt "crc_checksum" crc_checksum ++ opt "cs5_checksum" cs5_checksum)).


End Etsi.
