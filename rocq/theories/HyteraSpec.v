(** Specification of the hytera package.  The tables list every field of a structure with its
    bit offset inside the structure; they were taken from the format descriptions
    (okdmr/kaitai/hytera/*.ksy), not from the Python code.  Messages that can be carried inside other
    messages are described by a [decoder]: given the packet and the byte where the message starts, the
    decoded object and the byte where the message ends. *)
From Verif Require Import PyBase Codec Spec DecSpec Enums.
Open Scope string_scope.
Open Scope list_scope.
Open Scope Z_scope.

(** * hytera/radio_ip.ksy *)

(** radio_ip.ksy, top level; 32 bits *)
Definition L_RadioIp : list field := [
    F "subnet" 0 (U 8);
    F "radio_id_1" 8 (U 8);
    F "radio_id_2" 16 (U 8);
    F "radio_id_3" 24 (U 8)].


(** * hytera/radio_id.ksy *)

(** radio_id.ksy, top level; 32 bits *)
Definition L_RadioId : list field := [
    F "radio_id_raw" 0 (LE 4)].


(** * hytera/datetimestring.ksy *)

(** datetimestring.ksy, top level; 112 bits *)
Definition L_Datetimestring : list field := [
    F "datetime" 0 (KStr UTF8 14)].


(** * hytera/intervalstring.ksy *)

(** intervalstring.ksy, top level; 64 bits *)
Definition L_Intervalstring : list field := [
    F "interval" 0 (KStr UTF8 8)].


(** * hytera/gpsdata.ksy *)

(** gpsdata.ksy, top level; 320 bits *)
Definition L_Gpsdata : list field := [
    F "gps_status" 0 (KBytes 1);
    F "gps_time" 8 (KBytes 6);
    F "gps_date" 56 (KBytes 6);
    F "north_south" 104 (KBytes 1);
    F "latitude" 112 (KBytes 9);
    F "east_west" 184 (KBytes 1);
    F "longitude" 192 (KBytes 10);
    F "speed" 272 (KBytes 3);
    F "direction" 296 (KBytes 3)].




(** * hytera/data_delivery_states.ksy *)

(** data_delivery_states.ksy, top level; 88 bits *)
Definition L_DataDeliveryStates : list field := [
    F "reserved" 0 (KBytes 1);
    F "state_type" 8 (Enm DataDeliveryStates_StateTypes 8);
    F "message_length" 16 (U 16);
    F "radio_ip" 32 (KSub 32 (object "RadioIp" L_RadioIp));
    F "protocol_opcode" 64 (U 16);
    F "result" 80 (Enm DataDeliveryStates_Results 8)].


(** * hytera/data_transmit_protocol.ksy *)

(** data_transmit_protocol.ksy, type dtp_answer; 72 bits *)
Definition L_DataTransmitProtocol_DtpAnswer : list field := [
    F "destination_ip" 0 (KSub 32 (object "RadioIp" L_RadioIp));
    F "source_ip" 32 (KSub 32 (object "RadioIp" L_RadioIp));
    F "result" 64 (Enm DataTransmitProtocol_Results 8)].

(** data_transmit_protocol.ksy, type data_slice_answer; 88 bits *)
Definition L_DataTransmitProtocol_DataSliceAnswer : list field := [
    F "destination_ip" 0 (KSub 32 (object "RadioIp" L_RadioIp));
    F "source_ip" 32 (KSub 32 (object "RadioIp" L_RadioIp));
    F "block_number" 64 (U 16);
    F "result" 80 (Enm DataTransmitProtocol_Results 8)].

(** data_transmit_protocol.ksy, type last_data_slice; 64 bits *)
Definition L_DataTransmitProtocol_LastDataSlice : list field := [
    F "destination_ip" 0 (KSub 32 (object "RadioIp" L_RadioIp));
    F "source_ip" 32 (KSub 32 (object "RadioIp" L_RadioIp))].

(** data_transmit_protocol.ksy, type last_data_slice_answer; 72 bits *)
Definition L_DataTransmitProtocol_LastDataSliceAnswer : list field := [
    F "destination_ip" 0 (KSub 32 (object "RadioIp" L_RadioIp));
    F "source_ip" 32 (KSub 32 (object "RadioIp" L_RadioIp));
    F "result" 64 (Enm DataTransmitProtocol_Results 8)].




(** * hytera/location_protocol.ksy *)

(** location_protocol.ksy, type standard_request; 64 bits *)
Definition L_LocationProtocol_StandardRequest : list field := [
    F "request_id" 0 (U 32);
    F "radio_ip" 32 (KSub 32 (object "RadioIp" L_RadioIp))].

(** location_protocol.ksy, type standard_answer; 400 bits *)
Definition L_LocationProtocol_StandardAnswer : list field := [
    F "request_id" 0 (U 32);
    F "radio_ip" 32 (KSub 32 (object "RadioIp" L_RadioIp));
    F "result" 64 (Enm LocationProtocol_ResultCodes 16);
    F "gpsdata" 80 (KSub 320 (object "Gpsdata" L_Gpsdata))].

(** location_protocol.ksy, type standard_answer_with_rssi; 416 bits *)
Definition L_LocationProtocol_StandardAnswerWithRssi : list field := [
    F "request_id" 0 (U 32);
    F "radio_ip" 32 (KSub 32 (object "RadioIp" L_RadioIp));
    F "result" 64 (Enm LocationProtocol_ResultCodes 16);
    F "gpsdata" 80 (KSub 320 (object "Gpsdata" L_Gpsdata));
    F "rssi_value" 400 (KNum (NS16))].

(** location_protocol.ksy, type emergency_report_stop_request; 64 bits *)
Definition L_LocationProtocol_EmergencyReportStopRequest : list field := [
    F "request_id" 0 (U 32);
    F "radio_ip" 32 (KSub 32 (object "RadioIp" L_RadioIp))].

(** location_protocol.ksy, type emergency_report_stop_answer; 80 bits *)
Definition L_LocationProtocol_EmergencyReportStopAnswer : list field := [
    F "request_id" 0 (U 32);
    F "radio_ip" 32 (KSub 32 (object "RadioIp" L_RadioIp));
    F "result" 64 (Enm LocationProtocol_ResultCodes 16)].

(** location_protocol.ksy, type emergency_report; 360 bits *)
Definition L_LocationProtocol_EmergencyReport : list field := [
    F "radio_ip" 0 (KSub 32 (object "RadioIp" L_RadioIp));
    F "emergency_type" 32 (U 8);
    F "gpsdata" 40 (KSub 320 (object "Gpsdata" L_Gpsdata))].

(** location_protocol.ksy, type triggered_report_answer; 80 bits *)
Definition L_LocationProtocol_TriggeredReportAnswer : list field := [
    F "request_id" 0 (U 32);
    F "radio_ip" 32 (KSub 32 (object "RadioIp" L_RadioIp));
    F "result" 64 (Enm LocationProtocol_ResultCodes 16)].

(** location_protocol.ksy, type triggered_report_stop_request; 64 bits *)
Definition L_LocationProtocol_TriggeredReportStopRequest : list field := [
    F "request_id" 0 (U 32);
    F "radio_ip" 32 (KSub 32 (object "RadioIp" L_RadioIp))].

(** location_protocol.ksy, type triggered_report_stop_answer; 80 bits *)
Definition L_LocationProtocol_TriggeredReportStopAnswer : list field := [
    F "request_id" 0 (U 32);
    F "radio_ip" 32 (KSub 32 (object "RadioIp" L_RadioIp));
    F "result" 64 (Enm LocationProtocol_ResultCodes 16)].

(** location_protocol.ksy, type condition_report_answer; 88 bits *)
Definition L_LocationProtocol_ConditionReportAnswer : list field := [
    F "request_id" 0 (U 32);
    F "radio_ip" 32 (KSub 32 (object "RadioIp" L_RadioIp));
    F "trigger_type" 64 (Enm LocationProtocol_TriggerTypes 8);
    F "result" 72 (Enm LocationProtocol_ResultCodes 16)].

(** location_protocol.ksy, type condition_report; 384 bits *)
Definition L_LocationProtocol_ConditionReport : list field := [
    F "request_id" 0 (U 32);
    F "radio_ip" 32 (KSub 32 (object "RadioIp" L_RadioIp));
    F "gpsdata" 64 (KSub 320 (object "Gpsdata" L_Gpsdata))].

(** location_protocol.ksy, type condition_report_with_rssi; 416 bits *)
Definition L_LocationProtocol_ConditionReportWithRssi : list field := [
    F "request_id" 0 (U 32);
    F "radio_ip" 32 (KSub 32 (object "RadioIp" L_RadioIp));
    F "result" 64 (Enm LocationProtocol_ResultCodes 16);
    F "gpsdata" 80 (KSub 320 (object "Gpsdata" L_Gpsdata));
    F "rssi_value" 400 (KNum (NS16))].

(** location_protocol.ksy, type condition_quick_gps_answer; 88 bits *)
Definition L_LocationProtocol_ConditionQuickGpsAnswer : list field := [
    F "request_id" 0 (U 32);
    F "radio_ip" 32 (KSub 32 (object "RadioIp" L_RadioIp));
    F "cmd_type" 64 (Enm LocationProtocol_CmdTypes 8);
    F "result" 72 (Enm LocationProtocol_ResultCodes 16)].


(** * hytera/telemetry_protocol.ksy *)

(** telemetry_protocol.ksy, type standard_status_request; 88 bits *)
Definition L_TelemetryProtocol_StandardStatusRequest : list field := [
    F "source_ip" 0 (KSub 32 (object "RadioIp" L_RadioIp));
    F "target_ip" 32 (KSub 32 (object "RadioIp" L_RadioIp));
    F "pc_flag" 64 (Enm TelemetryProtocol_PcFlagTypes 8);
    F "call_type" 72 (Enm TelemetryProtocol_CallTypes 8);
    F "vio_select" 80 (KBytes 1)].

(** telemetry_protocol.ksy, type standard_status_report; 96 bits *)
Definition L_TelemetryProtocol_StandardStatusReport : list field := [
    F "source_ip" 0 (KSub 32 (object "RadioIp" L_RadioIp));
    F "target_ip" 32 (KSub 32 (object "RadioIp" L_RadioIp));
    F "pc_flag" 64 (Enm TelemetryProtocol_PcFlagTypes 8);
    F "call_type" 72 (Enm TelemetryProtocol_CallTypes 8);
    F "vio_select" 80 (KBytes 1);
    F "result" 88 (Enm TelemetryProtocol_ResultTypes 8)].

(** telemetry_protocol.ksy, type remote_control_request; 96 bits *)
Definition L_TelemetryProtocol_RemoteControlRequest : list field := [
    F "source_ip" 0 (KSub 32 (object "RadioIp" L_RadioIp));
    F "target_ip" 32 (KSub 32 (object "RadioIp" L_RadioIp));
    F "pc_flag" 64 (Enm TelemetryProtocol_PcFlagTypes 8);
    F "call_type" 72 (Enm TelemetryProtocol_CallTypes 8);
    F "vio_select" 80 (KBytes 1);
    F "operation" 88 (Enm TelemetryProtocol_OperationTypes 8)].

(** telemetry_protocol.ksy, type remote_control_answer; 96 bits *)
Definition L_TelemetryProtocol_RemoteControlAnswer : list field := [
    F "source_ip" 0 (KSub 32 (object "RadioIp" L_RadioIp));
    F "target_ip" 32 (KSub 32 (object "RadioIp" L_RadioIp));
    F "pc_flag" 64 (Enm TelemetryProtocol_PcFlagTypes 8);
    F "call_type" 72 (Enm TelemetryProtocol_CallTypes 8);
    F "vio_select" 80 (KBytes 1);
    F "result" 88 (Enm TelemetryProtocol_ControlResultTypes 8)].


(** * hytera/radio_control_protocol.ksy *)

(** radio_control_protocol.ksy, type call_request; 40 bits *)
Definition L_RadioControlProtocol_CallRequest : list field := [
    F "call_type" 0 (Enm RadioControlProtocol_CallTypes 8);
    F "target_id" 8 (LE 4)].

(** radio_control_protocol.ksy, type call_reply; 8 bits *)
Definition L_RadioControlProtocol_CallReply : list field := [
    F "result" 0 (Enm RadioControlProtocol_ReplyResults 8)].

(** radio_control_protocol.ksy, type remove_radio_request; 0 bits *)
Definition L_RadioControlProtocol_RemoveRadioRequest : list field := [
    ].

(** radio_control_protocol.ksy, type remove_radio_reply; 8 bits *)
Definition L_RadioControlProtocol_RemoveRadioReply : list field := [
    F "result" 0 (Enm RadioControlProtocol_ReplyResults 8)].

(** radio_control_protocol.ksy, type broadcast_configuration; 16 bits *)
Definition L_RadioControlProtocol_BroadcastConfiguration : list field := [
    F "config_operation" 0 (U 8);
    F "config_target" 8 (U 8)].

(** radio_control_protocol.ksy, type broadcast_status_configuration_reply; 8 bits *)
Definition L_RadioControlProtocol_BroadcastStatusConfigurationReply : list field := [
    F "result" 0 (Enm RadioControlProtocol_ReplyResults 8)].










(** * hytera/ip_site_connect_heartbeat.ksy *)

(** ip_site_connect_heartbeat.ksy, type keepalive; 8 bits *)
Definition L_IpSiteConnectHeartbeat_Keepalive : list field := [
    F "nullbyte" 0 (KMagic (B [0]) "/types/keepalive/seq/0")].

(** ip_site_connect_heartbeat.ksy, type ping_pong; 160 bits *)
Definition L_IpSiteConnectHeartbeat_PingPong : list field := [
    F "header" 0 (KMagic (B [90;90;90;90]) "/types/ping_pong/seq/0");
    F "heartbeat_identitier" 32 (KMagic (B [10;0;0;0;20]) "/types/ping_pong/seq/1");
    F "nullbytes" 72 (KMagic (B [0;0;0]) "/types/ping_pong/seq/2");
    F "heartbeat_seq" 96 (U 8);
    F "tail" 104 (KMagic (B [90;89;90;0;0;0;0]) "/types/ping_pong/seq/4")].


(** * hytera/real_time_transport_protocol.ksy *)

(** real_time_transport_protocol.ksy, type header_extension; 144 bits *)
Definition L_RealTimeTransportProtocol_HeaderExtension : list field := [
    F "header_identifier" 0 (U 16);
    F "length" 16 (U 16);
    F "slot" 32 (U 7);
    F "last_flag" 39 KFlag;
    F "source_id" 40 (KSub 32 (object "RadioId" L_RadioId));
    F "destination_id" 72 (KSub 32 (object "RadioId" L_RadioId));
    F "call_type" 104 (Enm RealTimeTransportProtocol_CallTypes 8);
    F "reserved" 112 (KBytes 4)].



(** * Radio registration service (radio_registration_service.ksy) *)
(** the table depends on the type: [result] follows for the two acks (0x80 registration, 0x82 online
    check), [valid_time] for the registration ack *)
Definition rrs_table (rrs_type : Z) : list field := [
    F "opcode" 0 (KMagic (B [0]) "/seq/0");
    F "rrs_type" 8 (Enm RadioRegistrationService_RrsTypes 8);
    F "message_length" 16 (U 16);
    F "radio_ip" 32 (KSub 32 (object "RadioIp" L_RadioIp))] ++
    (if (rrs_type =? 0x80) || (rrs_type =? 0x82) then [F "result" 64 (U 8)] else []) ++
    (if rrs_type =? 0x80 then [F "valid_time" 72 (U 32)] else []).
Definition rrs_at : decoder := fun b k =>
  table "RadioRegistrationService" (rrs_table (ubits b (8 * k + 8) 8)) b k.

(** * Data delivery states (data_delivery_states.ksy) *)
Definition dds_at : decoder := table "DataDeliveryStates" L_DataDeliveryStates.

(** * Data transmit protocol (data_transmit_protocol.ksy) *)
(** addresses, number, then what is left of the announced [message_length] bytes *)
Definition L_dtp_numbered (number : string) : list field := [
    F "destination_ip" 0 (KSub 32 (object "RadioIp" L_RadioIp));
    F "source_ip" 32 (KSub 32 (object "RadioIp" L_RadioIp));
    F number 64 (U 16)].
Definition dtp_request (message_length : Z) : decoder := fun b k =>
  let* h := fields b k (L_dtp_numbered "file_size") in
  let* t := text_at UTF16LE b (k + 10) (message_length - 10) in
  Ok (VObj "DataTransmitProtocol.DtpRequest" (h ++ [("file_name", t)]), k + message_length).
Definition dtp_slice (message_length : Z) : decoder := fun b k =>
  let* h := fields b k (L_dtp_numbered "block_number") in
  let* x := bytes_at b (k + 10) (message_length - 10) in
  Ok (VObj "DataTransmitProtocol.DataSliceTransmit" (h ++ [("file_data", VBytes x)]), k + message_length).
Definition dtp_bodies (message_length : Z) : list (Z * decoder) := [
    (0x01, dtp_request message_length);
    (0x11, table "DataTransmitProtocol.DtpAnswer" L_DataTransmitProtocol_DtpAnswer);
    (0x02, dtp_slice message_length);
    (0x12, table "DataTransmitProtocol.DataSliceAnswer" L_DataTransmitProtocol_DataSliceAnswer);
    (0x03, table "DataTransmitProtocol.LastDataSlice" L_DataTransmitProtocol_LastDataSlice);
    (0x13, table "DataTransmitProtocol.LastDataSliceAnswer" L_DataTransmitProtocol_LastDataSliceAnswer)].
Definition L_DataTransmitProtocol : list field := [
    F "service_type" 0 (Enm DataTransmitProtocol_ServiceTypes 8);
    F "service_specific_type" 8 (Enm DataTransmitProtocol_ServiceSpecificTypes 8);
    F "message_length" 16 (U 16)].
Definition dtp_at : decoder := fun b k =>
  let* h := fields b k L_DataTransmitProtocol in
  let* d := part "data" (select (ubits b (8 * k + 8) 8) (dtp_bodies (ubits b (8 * k + 16) 16))) b (k + 4) in
  Ok (VObj "DataTransmitProtocol" (h ++ fst d), snd d).

(** * Text message protocol (text_message_protocol.ksy) *)
(** [opt]: the option flag; [ty]: the service type (0xA1 private message, 0xA2 its ack, 0xB1 group
    message, 0xB2 its ack) *)
Definition tmp_fixed (opt : bool) (ty : Z) : list field :=
  let o := if opt then 48 else 32 in [
    F "ack_flag" 0 (Enm TextMessageProtocol_AckFlags 1);
    F "option_flag" 1 (Enm TextMessageProtocol_OptionFlags 1);
    F "reserved" 2 (U 6);
    F "service_type" 8 (Enm TextMessageProtocol_ServiceTypes 8);
    F "message_length" 16 (U 16)] ++
    (if opt then [F "option_field_len" 32 (U 16)] else []) ++ [
    F "request_id" o (U 32);
    F "destination_ip" (o + 32) (KSub 32 (object "RadioIp" L_RadioIp))] ++
    (if ty =? 0xB2 then [] else [F "source_ip" (o + 64) (KSub 32 (object "RadioIp" L_RadioIp))]) ++
    (if ty =? 0xA2 then [F "result" (o + 96) (Enm TextMessageProtocol_ResultCodes 8)]
     else if ty =? 0xB2 then [F "result" (o + 64) (Enm TextMessageProtocol_ResultCodes 8)] else []).
Definition tmp_at : decoder := fun b k =>
  let opt := bit b (8 * k + 1) in
  let ty := ubits b (8 * k + 8) 8 in
  let message_length := ubits b (8 * k + 16) 16 in
  let option_len := ubits b (8 * k + 32) 16 in
  let* h := fields b k (tmp_fixed opt ty) in
  let p := k + fs_end (tmp_fixed opt ty) 0 / 8 in
  let option_total := if opt then option_len + 2 else 0 in
  let text_len := message_length - 12 - option_total in
  let* t := if (ty =? 0xA1) || (ty =? 0xB1)
            then let* x := text_at UTF16LE b p text_len in
                 Ok ([("_m_option_sum_len", VInt option_total); ("tmdata", x)], p + text_len)
            else Ok ([], p) in
  let* o := if opt
            then let* x := text_at UTF16LE b (snd t) option_len in Ok ([("option_field", x)], snd t + option_len)
            else Ok ([], snd t) in
  Ok (VObj "TextMessageProtocol" (h ++ fst t ++ fst o), snd o).

(** * Location protocol (location_protocol.ksy) *)

(** location_protocol.ksy, type triggered_report_request; 352 bits *)
Definition L_LocationProtocol_TriggeredReportRequest : list field := [
    F "request_id" 0 (U 32);
    F "radio_ip" 32 (KSub 32 (object "RadioIp" L_RadioIp));
    F "start_time" 64 (KSub 112 (object "Datetimestring" L_Datetimestring));
    F "stop_time" 176 (KSub 112 (object "Datetimestring" L_Datetimestring));
    F "interval" 288 (KSub 64 (object "Intervalstring" L_Intervalstring))].

(** location_protocol.ksy, type triggered_report; 448 bits *)
Definition L_LocationProtocol_TriggeredReport : list field := [
    F "request_id" 0 (U 32);
    F "radio_ip" 32 (KSub 32 (object "RadioIp" L_RadioIp));
    F "time_remaining" 64 (KSub 64 (object "Intervalstring" L_Intervalstring));
    F "gpsdata" 128 (KSub 320 (object "Gpsdata" L_Gpsdata))].

(** location_protocol.ksy, type condition_report_request; 456 bits *)
Definition L_LocationProtocol_ConditionReportRequest : list field := [
    F "request_id" 0 (U 32);
    F "radio_ip" 32 (KSub 32 (object "RadioIp" L_RadioIp));
    F "trigger_type" 64 (U 8);
    F "distance" 72 (U 32);
    F "start_time" 104 (KSub 112 (object "Datetimestring" L_Datetimestring));
    F "stop_time" 216 (KSub 112 (object "Datetimestring" L_Datetimestring));
    F "interval" 328 (KSub 64 (object "Intervalstring" L_Intervalstring));
    F "max_interval" 392 (KSub 64 (object "Intervalstring" L_Intervalstring))].

(** location_protocol.ksy, type quick_gps_payload; 328 bits *)
Definition L_LocationProtocol_QuickGpsPayload : list field := [
    F "start_time" 0 (KSub 112 (object "Datetimestring" L_Datetimestring));
    F "stop_time" 112 (KSub 112 (object "Datetimestring" L_Datetimestring));
    F "interval" 224 (KSub 64 (object "Intervalstring" L_Intervalstring));
    F "send_step" 288 (U 16);
    F "channel_use_percentage" 304 (U 8);
    F "send_order" 312 (U 16)].

(** location_protocol.ksy, type condition_quick_gps_request: the payload is present iff cmd_type is 1 *)
Definition L_quick_gps_request (cmd_type : Z) : list field := [
    F "request_id" 0 (U 32);
    F "radio_ip" 32 (KSub 32 (object "RadioIp" L_RadioIp));
    F "cmd_type" 64 (Enm LocationProtocol_CmdTypes 8)] ++
    (if cmd_type =? 1
     then [F "quick_gps_payload" 72 (KSub 328 (object "LocationProtocol.QuickGpsPayload" L_LocationProtocol_QuickGpsPayload))]
     else []).
Definition quick_gps_request : decoder := fun b k =>
  table "LocationProtocol.ConditionQuickGpsRequest" (L_quick_gps_request (ubits b (8 * k + 64) 8)) b k.

(** opcode -> body; there is none for 0xA004 (standard_answer_gps_bt) *)
Definition lp_bodies : list (Z * decoder) := [
    (0xA001, table "LocationProtocol.StandardRequest" L_LocationProtocol_StandardRequest);
    (0xA002, table "LocationProtocol.StandardAnswer" L_LocationProtocol_StandardAnswer);
    (0xA003, table "LocationProtocol.StandardAnswerWithRssi" L_LocationProtocol_StandardAnswerWithRssi);
    (0xB001, table "LocationProtocol.EmergencyReportStopRequest" L_LocationProtocol_EmergencyReportStopRequest);
    (0xB002, table "LocationProtocol.EmergencyReportStopAnswer" L_LocationProtocol_EmergencyReportStopAnswer);
    (0xB003, table "LocationProtocol.EmergencyReport" L_LocationProtocol_EmergencyReport);
    (0xC001, table "LocationProtocol.TriggeredReportRequest" L_LocationProtocol_TriggeredReportRequest);
    (0xC002, table "LocationProtocol.TriggeredReportAnswer" L_LocationProtocol_TriggeredReportAnswer);
    (0xC003, table "LocationProtocol.TriggeredReport" L_LocationProtocol_TriggeredReport);
    (0xC004, table "LocationProtocol.TriggeredReportStopRequest" L_LocationProtocol_TriggeredReportStopRequest);
    (0xC005, table "LocationProtocol.TriggeredReportStopAnswer" L_LocationProtocol_TriggeredReportStopAnswer);
    (0xD001, table "LocationProtocol.ConditionReportRequest" L_LocationProtocol_ConditionReportRequest);
    (0xD002, table "LocationProtocol.ConditionReportAnswer" L_LocationProtocol_ConditionReportAnswer);
    (0xD003, table "LocationProtocol.ConditionReport" L_LocationProtocol_ConditionReport);
    (0xD004, table "LocationProtocol.ConditionReportWithRssi" L_LocationProtocol_ConditionReportWithRssi);
    (0xD011, quick_gps_request);
    (0xD012, table "LocationProtocol.ConditionQuickGpsAnswer" L_LocationProtocol_ConditionQuickGpsAnswer)].

Definition L_LocationProtocol : list field := [
    F "opcode_header" 0 (Enm LocationProtocol_LpSpecificTypes 16);
    F "message_length" 16 (U 16)].
Definition lp_at : decoder := fun b k =>
  let* h := fields b k L_LocationProtocol in
  let* d := part "data" (select (ubits b (8 * k) 16) lp_bodies) b (k + 4) in
  Ok (VObj "LocationProtocol" (h ++ fst d), snd d).

(** * Telemetry protocol (telemetry_protocol.ksy) *)
Definition L_vio_extended_status : list field := [
    F "result" 0 (Enm TelemetryProtocol_ResultTypes 8);
    F "message_length" 8 (U 16)].
Definition L_extended_status_report : list field := [
    F "source_ip" 0 (KSub 32 (object "RadioIp" L_RadioIp));
    F "target_ip" 32 (KSub 32 (object "RadioIp" L_RadioIp));
    F "pc_flag" 64 (Enm TelemetryProtocol_PcFlagTypes 8);
    F "call_type" 72 (Enm TelemetryProtocol_CallTypes 8);
    F "vio_select" 80 (KBytes 1)].
Definition extended_status_report : decoder := fun b k =>
  let* h := fields b k L_extended_status_report in
  let* g := fields b (k + 11) L_vio_extended_status in
  let n := ubits b (8 * (k + 11) + 8) 16 in
  let* t := text_at UTF16LE b (k + 14) n in
  Ok (VObj "TelemetryProtocol.ExtendedStatusReport"
        (h ++ [("result_messages", VObj "TelemetryProtocol.VioExtendedStatus" (g ++ [("message", t)]))]), k + 14 + n).
Definition tp_bodies : list (Z * decoder) := [
    (0xA001, table "TelemetryProtocol.StandardStatusRequest" L_TelemetryProtocol_StandardStatusRequest);
    (0xA081, table "TelemetryProtocol.StandardStatusReport" L_TelemetryProtocol_StandardStatusReport);
    (0xA082, extended_status_report);
    (0xB001, table "TelemetryProtocol.RemoteControlRequest" L_TelemetryProtocol_RemoteControlRequest);
    (0xB081, table "TelemetryProtocol.RemoteControlAnswer" L_TelemetryProtocol_RemoteControlAnswer)].
Definition L_TelemetryProtocol : list field := [
    F "service_type_opcode" 0 (Enm TelemetryProtocol_ServiceTypes 8);
    F "specific_service_opcode" 8 (U 8);
    F "message_length" 16 (U 16)].
(** A telemetry message whose body is selected by the two bytes at byte [j]. *)
Definition tp_selected_at (j : Z) : decoder := fun b k =>
  let* h := fields b k L_TelemetryProtocol in
  let s := ubits b (8 * j) 16 in
  let* d := part "data" (select s tp_bodies) b (k + 4) in
  Ok (VObj "TelemetryProtocol" (h ++ [("_m_specific_service", resolve_enum TelemetryProtocol_ServiceSpecificTypes s)] ++ fst d), snd d).
(** What the format means: the message's own first two bytes select. *)
Definition tp_intended : decoder := fun b k => tp_selected_at k b k.
(** What is implemented: the first two bytes of the whole packet select, wherever the message is. *)
Definition tp_at : decoder := tp_selected_at 0.

(** * Radio control protocol (radio_control_protocol.ksy) *)
Definition rcp_broadcast_request : decoder := fun b k =>
  if blen b <? k + 1 then Err EOFError else
  let n := ubits b (8 * k) 8 in
  if blen b <? k + 1 + 2 * n then Err EOFError else
  let pair i := VObj "RadioControlProtocol.BroadcastConfiguration" [
      ("config_operation", VInt (ubits b (8 * (k + 1 + 2 * Z.of_nat i)) 8));
      ("config_target", VInt (ubits b (8 * (k + 2 + 2 * Z.of_nat i)) 8))] in
  Ok (VObj "RadioControlProtocol.BroadcastStatusConfigurationRequest"
       [("num_broadcast_configuration", VInt n);
        ("broadcast_configuration", VList (map pair (List.seq 0 (Z.to_nat n))))], k + 1 + 2 * n).
(** the parts that the announced length covers *)
Definition L_rcp_identification (message_length : Z) : list field :=
    (if 6 <=? message_length then [F "header" 0 (KBytes 6)] else []) ++
    (if 198 <=? message_length then [F "text" 48 (KStr UTF16BE 192)] else []) ++
    (if 206 <=? message_length then [F "footer" 1584 (KBytes 8)] else []).
Definition rcp_generic (message_length : Z) : decoder := fun b k =>
  let* x := bytes_at b k message_length in
  Ok (VObj "RadioControlProtocol.GenericData" [("data", VBytes x)], k + message_length).
Definition rcp_bodies (message_length : Z) : list (Z * decoder) := [
    (0x0841, table "RadioControlProtocol.CallRequest" L_RadioControlProtocol_CallRequest);
    (0x8841, table "RadioControlProtocol.CallReply" L_RadioControlProtocol_CallReply);
    (0x0842, table "RadioControlProtocol.RemoveRadioRequest" L_RadioControlProtocol_RemoveRadioRequest);
    (0x8842, table "RadioControlProtocol.RemoveRadioReply" L_RadioControlProtocol_RemoveRadioReply);
    (0x10C9, rcp_broadcast_request);
    (0x80C9, table "RadioControlProtocol.BroadcastStatusConfigurationReply" L_RadioControlProtocol_BroadcastStatusConfigurationReply);
    (0x82D4, table "RadioControlProtocol.RadioIdentificationReply" (L_rcp_identification message_length))].
Definition L_RadioControlProtocol : list field := [
    F "service_type" 0 (EnmLE RadioControlProtocol_ServiceTypes 2);
    F "message_length" 16 (LE 2)].
Definition rcp_at : decoder := fun b k =>
  let* h := fields b k L_RadioControlProtocol in
  let message_length := le_num (slice b (k + 2) 2) in
  let f := match select (le_num (slice b k 2)) (rcp_bodies message_length) with
           | Some f => f
           | None => rcp_generic message_length
           end in
  let* d := part "data" (Some f) b (k + 4) in
  Ok (VObj "RadioControlProtocol" (h ++ fst d), snd d).

(** * HDAP (hytera_dmr_application_protocol.ksy) *)
Definition hdap_bodies : list (Z * decoder) := [
    (0x02, rcp_at); (0x08, lp_at); (0x09, tmp_at); (0x11, rrs_at); (0x12, tp_at); (0x13, dtp_at); (0x14, dds_at)].
Definition L_HyteraDmrApplicationProtocol : list field := [
    F "is_reliable_message" 0 KFlag;
    F "message_header" 1 (Enm HyteraDmrApplicationProtocol_MessageHeaderTypes 7)].
Definition L_hdap_trailer : list field := [
    F "checksum" 0 (U 8);
    F "message_footer" 8 (KMagic (B [3]) "/seq/4")].
Definition hdap_at : decoder := fun b k =>
  let* h := fields b k L_HyteraDmrApplicationProtocol in
  let* d := part "data" (select (ubits b (8 * k + 1) 7) hdap_bodies) b (k + 1) in
  let* t := fields b (snd d) L_hdap_trailer in
  Ok (VObj "HyteraDmrApplicationProtocol" (h ++ fst d ++ t), snd d + 2).

(** * HRNP (hytera_radio_network_protocol.ksy) *)
Definition L_HyteraRadioNetworkProtocol : list field := [
    F "header_identifier" 0 (KMagic (B [0x7e]) "/seq/0");
    F "version" 8 (U 8);
    F "block" 16 (U 8);
    F "opcode" 24 (Enm HyteraRadioNetworkProtocol_Opcodes 8);
    F "source_id" 32 (U 8);
    F "destination_id" 40 (U 8);
    F "packet_number" 48 (U 16);
    F "hrnp_packet_length" 64 (U 16);
    F "checksum" 80 (U 16)].
Definition hrnp_at : decoder := fun b k =>
  let* h := fields b k L_HyteraRadioNetworkProtocol in
  let* d := part "data" (if ubits b (8 * k + 24) 8 =? 0 then Some hdap_at else None) b (k + 12) in
  Ok (VObj "HyteraRadioNetworkProtocol" (h ++ fst d), snd d).

(** * HSTRP (hytera_simple_transport_reliability_protocol.ksy) *)
Definition L_HyteraSimpleTransportReliabilityProtocol : list field := [
    F "header" 0 (KMagic (blit "2B") "/seq/0");
    F "version" 16 (U 8);
    F "reserved" 24 (U 2);
    F "has_option" 26 KFlag;
    F "is_reject" 27 KFlag;
    F "is_close" 28 KFlag;
    F "is_connect" 29 KFlag;
    F "is_heartbeat" 30 KFlag;
    F "is_ack" 31 KFlag;
    F "sequence_number" 32 (U 16)].
Definition L_hstrp_option : list field := [
    F "expect_more_options" 0 KFlag;
    F "command" 1 (Enm HyteraSimpleTransportReliabilityProtocol_OptionCommands 7);
    F "len_option_payload" 8 (U 8)].
Definition option_at : decoder := fun b k =>
  let* h := fields b k L_hstrp_option in
  let n := ubits b (8 * k + 8) 8 in
  let* x := bytes_at b (k + 2) n in
  Ok (VObj "HyteraSimpleTransportReliabilityProtocol.Option" (h ++ [("option_payload", VBytes x)]), k + 2 + n).

(** [options b k r]: reading the chain of options from byte [k] on gives [r]: the list of options, each
    one but the last announcing another one, and the byte after the last; or the first option's exception. *)
Inductive options (b : bytes) : Z -> res (list pyval * Z) -> Prop :=
| options_last k o e :
    option_at b k = Ok (o, e) -> bit b (8 * k) = false -> options b k (Ok ([o], e))
| options_more k o e r :
    option_at b k = Ok (o, e) -> bit b (8 * k) = true -> options b e r ->
    options b k (rmap (fun x => (o :: fst x, snd x)) r)
| options_bad k x : option_at b k = Err x -> options b k (Err x).

(** [messages b k r]: from byte [k] on the packet is a sequence of HDAP messages. *)
Inductive messages (b : bytes) : Z -> res (list pyval) -> Prop :=
| messages_end k : k = blen b -> messages b k (Ok [])
| messages_cons k m e r : k < blen b -> hdap_at b k = Ok (m, e) -> messages b e r ->
    messages b k (rmap (cons m) r)
| messages_bad k x : k < blen b -> hdap_at b k = Err x -> messages b k (Err x).

(** [hstrp b r]: decoding packet [b] gives [r]. *)
Inductive hstrp (b : bytes) : res pyval -> Prop :=
| hstrp_bad x : fields b 0 L_HyteraSimpleTransportReliabilityProtocol = Err x -> hstrp b (Err x)
| hstrp_ok h ro rd :
    let more k := k <? blen b in
    let has_option := bit b 26 in
    let control := bit b 27 || bit b 28 || bit b 29 in  (* reject, close, connect *)
    let heartbeat := bit b 30 in
    fields b 0 L_HyteraSimpleTransportReliabilityProtocol = Ok h ->
    (if more 6 && has_option && negb heartbeat
     then exists r, options b 6 r /\ ro = rmap (fun x => ([("options", VList (fst x))], snd x)) r
     else ro = Ok ([], 6)) ->
    (forall ao k, ro = Ok (ao, k) ->
       if more k then
         if control then rd = Ok [("extra_data", VBytes (rest b k))]
         else exists r, messages b k r /\ rd = rmap (fun l => [("data", VList l)]) r
       else rd = Ok []) ->
    hstrp b (let* o := ro in let* d := rd in
             Ok (VObj "HyteraSimpleTransportReliabilityProtocol" (h ++ fst o ++ d))).

(** * IPSC (ip_site_connect_protocol.ksy); 576 bits *)
Definition L_IpSiteConnectProtocol : list field := [
    F "source_port" 0 (KBytes 2);
    F "fixed_header" 16 (KMagic (B [0x5a; 0x5a]) "/seq/1");
    F "sequence_number" 32 (U 8);
    F "reserved_3" 40 (KBytes 3);
    F "packet_type" 64 (Enm IpSiteConnectProtocol_PacketTypes 8);
    F "reserved_7a" 72 (KBytes 7);
    F "timeslot_raw" 128 (Enm IpSiteConnectProtocol_Timeslots 16);
    F "slot_type" 144 (Enm IpSiteConnectProtocol_SlotTypes 16);
    F "color_code_raw" 160 (LE 2);
    F "frame_type" 176 (Enm IpSiteConnectProtocol_FrameTypes 16);
    F "reserved_2a" 192 (KBytes 2);
    F "ipsc_payload" 208 (KBytes 34);
    F "reserved_2b" 480 (KBytes 2);
    F "call_type" 496 (Enm IpSiteConnectProtocol_CallTypes 8);
    F "destination_radio_id_raw" 504 (LE 4);
    F "source_radio_id_raw" 536 (LE 4);
    F "reserved_1b" 568 (U 8)].
Definition ipsc_spec (b : bytes) : res pyval :=
  let* h := fields b 0 L_IpSiteConnectProtocol in
  Ok (VObj "IpSiteConnectProtocol" (h ++ (if 72 <? blen b then [("extra_data", VBytes (rest b 72))] else []))).

(** * IPSC heartbeat (ip_site_connect_heartbeat.ksy): the packet size decides *)
Definition heartbeat_spec (b : bytes) : res pyval :=
  let* d := if blen b =? 1 then object "IpSiteConnectHeartbeat.Keepalive" L_IpSiteConnectHeartbeat_Keepalive b 0
            else if blen b =? 20 then object "IpSiteConnectHeartbeat.PingPong" L_IpSiteConnectHeartbeat_PingPong b 0
            else Ok (VObj "IpSiteConnectHeartbeat.Unknown" [("data", VBytes b)]) in
  Ok (VObj "IpSiteConnectHeartbeat" [("data", d)]).

(** * RTP (real_time_transport_protocol.ksy) *)
Definition L_rtp_fixed : list field := [
    F "version" 0 (U 2);
    F "padding" 2 KFlag;
    F "extension" 3 KFlag;
    F "num_csrc" 4 (U 4);
    F "marker" 8 KFlag;
    F "payload_type" 9 (U 7);
    F "sequence_number" 16 (U 16);
    F "timestamp" 32 (U 32);
    F "ssrc" 64 (U 32)].
(** 12 bytes, then [num_csrc] 32-bit source identifiers *)
Definition rtp_fixed_header : decoder := fun b k =>
  if blen b <? k + 1 then Err EOFError else
  let version := ubits b (8 * k) 2 in
  if negb (version =? 2) then Err (ValidationNotEqualError (VInt 2) (VInt version) "/types/fixed_header/seq/0") else
  let* h := fields b k L_rtp_fixed in
  let n := ubits b (8 * k + 4) 4 in
  if blen b <? k + 12 + 4 * n then Err EOFError else
  let csrc := map (fun i => VInt (ubits b (8 * (k + 12 + 4 * Z.of_nat i)) 32)) (List.seq 0 (Z.to_nat n)) in
  Ok (VObj "RealTimeTransportProtocol.FixedHeader" (h ++ [("csrc", VList csrc)]), k + 12 + 4 * n).
Definition rtp_spec (b : bytes) : res pyval :=
  let* f := rtp_fixed_header b 0 in
  let* e := part "header_extension"
              (if bit b 3 then Some (table "RealTimeTransportProtocol.HeaderExtension" L_RealTimeTransportProtocol_HeaderExtension)
               else None) b (snd f) in
  let p := snd e in
  let padding := bit b 2 in
  (* with the padding bit set, the last byte of the packet is the number of padding bytes *)
  let n := if padding then ubits b (8 * (blen b - 1)) 8 else 0 in
  if blen b - p <? n then Err ValueError else
  Ok (VObj "RealTimeTransportProtocol"
       ([("fixed_header", fst f)] ++ fst e ++
        (if padding then [("_m_len_padding_if_exists", VInt n)] else []) ++ [("_m_len_padding", VInt n)] ++
        [("audio_data", VBytes (slice b p (blen b - p - n)))] ++
        (if padding then [("padding", VBytes (rest b (blen b - n)))] else []))).

(** * Derived values *)
(** radio_ip.ksy instances: decimal rendering of a byte *)
Definition dec (n : Z) : pystr :=
  if n <? 10 then [48 + n]
  else if n <? 100 then [48 + n / 10; 48 + n mod 10]
  else [48 + n / 100; 48 + n / 10 mod 10; 48 + n mod 10].
Definition dotted (a0 a1 a2 a3 : Z) : pystr :=
  dec a0 ++ lit "." ++ dec a1 ++ lit "." ++ dec a2 ++ lit "." ++ dec a3.
