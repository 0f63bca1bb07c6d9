(** Model of okdmr/kaitai/hytera: one definition per generated [_read] / property,
    statement by statement (paths are relative to /repo/okdmr/kaitai).
    [rt] is the installed kaitaistruct runtime. *)
From Verif Require Import PyBase Runtime Codec Enums Getters.
From Coq Require Import DecimalString.
Open Scope string_scope.
Open Scope list_scope.
Open Scope Z_scope.

(** Python [str(z)] *)
Definition py_str_int (z : Z) : pystr :=
  (if z <? 0 then lit "-" else []) ++ lit (NilEmpty.string_of_uint (N.to_uint (Z.to_N (Z.abs z)))).

(** [e.value] of an enum field: plain numbers (undeclared values) have no such attribute *)
Definition enum_value (v : pyval) : M Z :=
  match v with VEnum _ _ z => ret z | _ => fail (AttributeError "value") end.

(** reading an attribute that may not have been assigned *)
Definition needed {A} (x : string) (v : option A) : M A :=
  match v with Some a => ret a | None => fail (AttributeError x) end.

(** [for i in range(n): l.append(m)] *)
Fixpoint repeat_n (n : nat) (m : M pyval) : M (list pyval) :=
  match n with
  | O => ret []
  | S n' => v <- m;; l <- repeat_n n' m;; ret (v :: l)
  end.
Definition for_range (n : Z) (m : M pyval) : M (list pyval) := repeat_n (Z.to_nat n) m.

(** Unbounded loops get one iteration per byte of the buffer, and one more; HyteraProofs.v shows that
    this is never exhausted. *)
Definition with_fuel {A} (loop : nat -> M A) : M A := fun s => loop (S (List.length (s_buf s))) s.

Section Hytera.
Context (rt : runtime).

(** * hytera/radio_ip.py *)

(** hytera/radio_ip.py:26-30 [RadioIp._read] *)
Definition p_RadioIp : M pyval := obj "RadioIp" [
    ("subnet", vint (read_u1 rt));
    ("radio_id_1", vint (read_u1 rt));
    ("radio_id_2", vint (read_u1 rt));
    ("radio_id_3", vint (read_u1 rt))].

(** hytera/radio_ip.py:33-40 [RadioIp.radio_id] *)
Definition RadioIp_radio_id : live -> res pyval * live := memo "radio_id" (fun a =>
    r1 <- stored_int "radio_id_1" a;;
    r2 <- stored_int "radio_id_2" a;;
    r3 <- stored_int "radio_id_3" a;;
    ret (VInt ((Z.shiftl r1 16 + Z.shiftl r2 8) + r3))).

(** hytera/radio_ip.py:43-56 [RadioIp.radio_ip] *)
Definition RadioIp_radio_ip : live -> res pyval * live := memo "radio_ip" (fun a =>
    r0 <- stored_int "subnet" a;;
    r1 <- stored_int "radio_id_1" a;;
    r2 <- stored_int "radio_id_2" a;;
    r3 <- stored_int "radio_id_3" a;;
    ret (VStr (py_str_int r0 ++ lit "." ++ py_str_int r1 ++ lit "." ++ py_str_int r2 ++ lit "." ++ py_str_int r3))).

(** * hytera/radio_id.py *)

(** hytera/radio_id.py:23-24 [RadioId._read] *)
Definition p_RadioId : M pyval := obj "RadioId" [
    ("radio_id_raw", vint (read_u4le rt))].

(** hytera/radio_id.py:27-32 [RadioId.radio_id] *)
Definition RadioId_radio_id : live -> res pyval * live := memo "radio_id" (fun a =>
    raw <- stored_int "radio_id_raw" a;; ret (VInt (Z.shiftr raw 8))).

(** * hytera/datetimestring.py *)

(** hytera/datetimestring.py:23-24 [Datetimestring._read] *)
Definition p_Datetimestring : M pyval := obj "Datetimestring" [
    ("datetime", vstr rt UTF8 14)].

(** * hytera/intervalstring.py *)

(** hytera/intervalstring.py:23-24 [Intervalstring._read] *)
Definition p_Intervalstring : M pyval := obj "Intervalstring" [
    ("interval", vstr rt UTF8 8)].

(** * hytera/gpsdata.py *)

(** hytera/gpsdata.py:21-30 [Gpsdata._read] *)
Definition p_Gpsdata : M pyval := obj "Gpsdata" [
    ("gps_status", vbytes rt 1);
    ("gps_time", vbytes rt 6);
    ("gps_date", vbytes rt 6);
    ("north_south", vbytes rt 1);
    ("latitude", vbytes rt 9);
    ("east_west", vbytes rt 1);
    ("longitude", vbytes rt 10);
    ("speed", vbytes rt 3);
    ("direction", vbytes rt 3)].

(** hytera/gpsdata.py:33-38 [Gpsdata.gps_available] *)
Definition Gpsdata_gps_available : live -> res pyval * live := memo "gps_available" (fun a =>
    v <- stored "gps_status" a;;
    match v with
    | VBytes x => s <- lift (py_decode ASCII x);; ret (VBool (str_eqb s "A"))
    | _ => fail (AttributeError "decode")
    end).

(** * hytera/radio_registration_service.py *)

(** hytera/radio_registration_service.py:32-49 [RadioRegistrationService._read] *)
Definition p_RadioRegistrationService : M pyval :=
    opcode <- expect_bytes rt (B [0]) "/seq/0";;
    rrs_type <- venum RadioRegistrationService_RrsTypes (read_u1 rt);;
    message_length <- read_u2be rt;;
    radio_ip <- p_RadioIp;;
    result <- (if (eq_member RadioRegistrationService_RrsTypes "registration_ack" rrs_type || eq_member RadioRegistrationService_RrsTypes "online_check_ack" rrs_type) then some (vint (read_u1 rt))
        else none);;
    valid_time <- (if eq_member RadioRegistrationService_RrsTypes "registration_ack" rrs_type then some (vint (read_u4be rt))
        else none);;
    ret (VObj "RadioRegistrationService" ([("opcode", opcode); ("rrs_type", rrs_type); ("message_length", VInt message_length); ("radio_ip", radio_ip)] ++ opt "result" result ++ opt "valid_time" valid_time)).

(** * hytera/data_delivery_states.py *)

(** hytera/data_delivery_states.py:42-52 [DataDeliveryStates._read] *)
Definition p_DataDeliveryStates : M pyval := obj "DataDeliveryStates" [
    ("reserved", vbytes rt 1);
    ("state_type", venum DataDeliveryStates_StateTypes (read_u1 rt));
    ("message_length", vint (read_u2be rt));
    ("radio_ip", p_RadioIp);
    ("protocol_opcode", vint (read_u2be rt));
    ("result", venum DataDeliveryStates_Results (read_u1 rt))].

(** * hytera/data_transmit_protocol.py *)

(** hytera/data_transmit_protocol.py:75-77 [DataTransmitProtocol.LastDataSlice._read] *)
Definition p_DataTransmitProtocol_LastDataSlice : M pyval := obj "DataTransmitProtocol.LastDataSlice" [
    ("destination_ip", p_RadioIp);
    ("source_ip", p_RadioIp)].

(** hytera/data_transmit_protocol.py:86-92 [DataTransmitProtocol.DtpRequest._read] *)
Definition p_DataTransmitProtocol_DtpRequest (parent_message_length : Z) : M pyval :=
    destination_ip <- p_RadioIp;;
    source_ip <- p_RadioIp;;
    file_size <- read_u2be rt;;
    file_name <- read_str rt UTF16LE (parent_message_length - 10);;
    ret (VObj "DataTransmitProtocol.DtpRequest" [("destination_ip", destination_ip); ("source_ip", source_ip); ("file_size", VInt file_size); ("file_name", VStr file_name)]).

(** hytera/data_transmit_protocol.py:101-107 [DataTransmitProtocol.DataSliceAnswer._read] *)
Definition p_DataTransmitProtocol_DataSliceAnswer : M pyval := obj "DataTransmitProtocol.DataSliceAnswer" [
    ("destination_ip", p_RadioIp);
    ("source_ip", p_RadioIp);
    ("block_number", vint (read_u2be rt));
    ("result", venum DataTransmitProtocol_Results (read_u1 rt))].

(** hytera/data_transmit_protocol.py:116-120 [DataTransmitProtocol.DataSliceTransmit._read] *)
Definition p_DataTransmitProtocol_DataSliceTransmit (parent_message_length : Z) : M pyval :=
    destination_ip <- p_RadioIp;;
    source_ip <- p_RadioIp;;
    block_number <- read_u2be rt;;
    file_data <- read_bytes rt (parent_message_length - 10);;
    ret (VObj "DataTransmitProtocol.DataSliceTransmit" [("destination_ip", destination_ip); ("source_ip", source_ip); ("block_number", VInt block_number); ("file_data", VBytes file_data)]).

(** hytera/data_transmit_protocol.py:129-134 [DataTransmitProtocol.LastDataSliceAnswer._read] *)
Definition p_DataTransmitProtocol_LastDataSliceAnswer : M pyval := obj "DataTransmitProtocol.LastDataSliceAnswer" [
    ("destination_ip", p_RadioIp);
    ("source_ip", p_RadioIp);
    ("result", venum DataTransmitProtocol_Results (read_u1 rt))].

(** hytera/data_transmit_protocol.py:143-148 [DataTransmitProtocol.DtpAnswer._read] *)
Definition p_DataTransmitProtocol_DtpAnswer : M pyval := obj "DataTransmitProtocol.DtpAnswer" [
    ("destination_ip", p_RadioIp);
    ("source_ip", p_RadioIp);
    ("result", venum DataTransmitProtocol_Results (read_u1 rt))].

(** hytera/data_transmit_protocol.py:40-64 [DataTransmitProtocol._read] *)
Definition p_DataTransmitProtocol : M pyval :=
    service_type <- venum DataTransmitProtocol_ServiceTypes (read_u1 rt);;
    service_specific_type <- venum DataTransmitProtocol_ServiceSpecificTypes (read_u1 rt);;
    message_length <- read_u2be rt;;
    data <- (if eq_member DataTransmitProtocol_ServiceSpecificTypes "dtp_request" service_specific_type then some (p_DataTransmitProtocol_DtpRequest message_length)
        else if eq_member DataTransmitProtocol_ServiceSpecificTypes "data_slice_transmit" service_specific_type then some (p_DataTransmitProtocol_DataSliceTransmit message_length)
        else if eq_member DataTransmitProtocol_ServiceSpecificTypes "data_slice_answer" service_specific_type then some (p_DataTransmitProtocol_DataSliceAnswer)
        else if eq_member DataTransmitProtocol_ServiceSpecificTypes "last_data_slice_answer" service_specific_type then some (p_DataTransmitProtocol_LastDataSliceAnswer)
        else if eq_member DataTransmitProtocol_ServiceSpecificTypes "dtp_answer" service_specific_type then some (p_DataTransmitProtocol_DtpAnswer)
        else if eq_member DataTransmitProtocol_ServiceSpecificTypes "last_data_slice" service_specific_type then some (p_DataTransmitProtocol_LastDataSlice)
        else none);;
    ret (VObj "DataTransmitProtocol" ([("service_type", service_type); ("service_specific_type", service_specific_type); ("message_length", VInt message_length)] ++ opt "data" data)).

(** * hytera/text_message_protocol.py *)

(** hytera/text_message_protocol.py:99-106 [TextMessageProtocol.option_sum_len], the computation behind
    the memo test: during [_read] it is evaluated at most once, so the memo is empty there; the
    memo attribute [_m_option_sum_len] it leaves is recorded by [_read] below. *)
Definition TextMessageProtocol_option_sum_len (option_value : Z) (option_field_len : option Z) : M Z :=
    if option_value =? 1 then (n <- needed "option_field_len" option_field_len;; ret (n + 2)) else ret 0.

(** hytera/text_message_protocol.py:53-96 [TextMessageProtocol._read] *)
Definition p_TextMessageProtocol : M pyval :=
    ack_flag <- venum TextMessageProtocol_AckFlags (read_bits 1);;
    option_flag <- venum TextMessageProtocol_OptionFlags (read_bits 1);;
    reserved <- read_bits 6;;
    align_to_byte;;;
    service_type <- venum TextMessageProtocol_ServiceTypes (read_u1 rt);;
    message_length <- read_u2be rt;;
    option_value <- enum_value option_flag;;
    option_field_len <- (if option_value =? 1 then (n <- read_u2be rt;; ret (Some n)) else ret None);;
    request_id <- read_u4be rt;;
    destination_ip <- p_RadioIp;;
    source_ip <- (if negb (eq_member TextMessageProtocol_ServiceTypes "send_group_message_ack" service_type) then some p_RadioIp else none);;
    result <- (if (eq_member TextMessageProtocol_ServiceTypes "send_private_message_ack" service_type || eq_member TextMessageProtocol_ServiceTypes "send_group_message_ack" service_type)
        then some (venum TextMessageProtocol_ResultCodes (read_u1 rt)) else none);;
    tmdata <- (if (eq_member TextMessageProtocol_ServiceTypes "send_private_message" service_type || eq_member TextMessageProtocol_ServiceTypes "send_group_message" service_type)
        then (option_sum_len <- TextMessageProtocol_option_sum_len option_value option_field_len;;
              x <- read_str rt UTF16LE ((((message_length - 4) - 4) - 4) - option_sum_len);;
              ret [("_m_option_sum_len", VInt option_sum_len); ("tmdata", VStr x)])
        else ret []);;
    option_field <- (if option_value =? 1 then
        (n <- needed "option_field_len" option_field_len;; some (vstr rt UTF16LE n)) else none);;
    ret (VObj "TextMessageProtocol" ([("ack_flag", ack_flag); ("option_flag", option_flag); ("reserved", VInt reserved); ("service_type", service_type); ("message_length", VInt message_length)] ++ opt "option_field_len" (option_map VInt option_field_len) ++ [("request_id", VInt request_id); ("destination_ip", destination_ip)] ++ opt "source_ip" source_ip ++ opt "result" result ++ tmdata ++ opt "option_field" option_field)).


(** * hytera/location_protocol.py *)

(** hytera/location_protocol.py:143-148 [LocationProtocol.TriggeredReportStopAnswer._read] *)
Definition p_LocationProtocol_TriggeredReportStopAnswer : M pyval := obj "LocationProtocol.TriggeredReportStopAnswer" [
    ("request_id", vint (read_u4be rt));
    ("radio_ip", p_RadioIp);
    ("result", venum LocationProtocol_ResultCodes (read_u2be rt))].

(** hytera/location_protocol.py:157-165 [LocationProtocol.ConditionReportRequest._read] *)
Definition p_LocationProtocol_ConditionReportRequest : M pyval := obj "LocationProtocol.ConditionReportRequest" [
    ("request_id", vint (read_u4be rt));
    ("radio_ip", p_RadioIp);
    ("trigger_type", vint (read_u1 rt));
    ("distance", vint (read_u4be rt));
    ("start_time", p_Datetimestring);
    ("stop_time", p_Datetimestring);
    ("interval", p_Intervalstring);
    ("max_interval", p_Intervalstring)].

(** hytera/location_protocol.py:246-252 [LocationProtocol.QuickGpsPayload._read] *)
Definition p_LocationProtocol_QuickGpsPayload : M pyval := obj "LocationProtocol.QuickGpsPayload" [
    ("start_time", p_Datetimestring);
    ("stop_time", p_Datetimestring);
    ("interval", p_Intervalstring);
    ("send_step", vint (read_u2be rt));
    ("channel_use_percentage", vint (read_u1 rt));
    ("send_order", vint (read_u2be rt))].

(** hytera/location_protocol.py:174-183 [LocationProtocol.ConditionQuickGpsRequest._read] *)
Definition p_LocationProtocol_ConditionQuickGpsRequest : M pyval :=
    request_id <- read_u4be rt;;
    radio_ip <- p_RadioIp;;
    cmd_type <- venum LocationProtocol_CmdTypes (read_u1 rt);;
    quick_gps_payload <- (if eq_member LocationProtocol_CmdTypes "start_request" cmd_type then some (p_LocationProtocol_QuickGpsPayload)
        else none);;
    ret (VObj "LocationProtocol.ConditionQuickGpsRequest" ([("request_id", VInt request_id); ("radio_ip", radio_ip); ("cmd_type", cmd_type)] ++ opt "quick_gps_payload" quick_gps_payload)).

(** hytera/location_protocol.py:192-195 [LocationProtocol.ConditionReport._read] *)
Definition p_LocationProtocol_ConditionReport : M pyval := obj "LocationProtocol.ConditionReport" [
    ("request_id", vint (read_u4be rt));
    ("radio_ip", p_RadioIp);
    ("gpsdata", p_Gpsdata)].

(** hytera/location_protocol.py:204-207 [LocationProtocol.EmergencyReport._read] *)
Definition p_LocationProtocol_EmergencyReport : M pyval := obj "LocationProtocol.EmergencyReport" [
    ("radio_ip", p_RadioIp);
    ("emergency_type", vint (read_u1 rt));
    ("gpsdata", p_Gpsdata)].

(** hytera/location_protocol.py:216-221 [LocationProtocol.TriggeredReportAnswer._read] *)
Definition p_LocationProtocol_TriggeredReportAnswer : M pyval := obj "LocationProtocol.TriggeredReportAnswer" [
    ("request_id", vint (read_u4be rt));
    ("radio_ip", p_RadioIp);
    ("result", venum LocationProtocol_ResultCodes (read_u2be rt))].

(** hytera/location_protocol.py:230-237 [LocationProtocol.StandardAnswerWithRssi._read] *)
Definition p_LocationProtocol_StandardAnswerWithRssi : M pyval := obj "LocationProtocol.StandardAnswerWithRssi" [
    ("request_id", vint (read_u4be rt));
    ("radio_ip", p_RadioIp);
    ("result", venum LocationProtocol_ResultCodes (read_u2be rt));
    ("gpsdata", p_Gpsdata);
    ("rssi_value", vint (read_s2be rt))].

(** hytera/location_protocol.py:261-263 [LocationProtocol.StandardRequest._read] *)
Definition p_LocationProtocol_StandardRequest : M pyval := obj "LocationProtocol.StandardRequest" [
    ("request_id", vint (read_u4be rt));
    ("radio_ip", p_RadioIp)].

(** hytera/location_protocol.py:272-277 [LocationProtocol.TriggeredReportRequest._read] *)
Definition p_LocationProtocol_TriggeredReportRequest : M pyval := obj "LocationProtocol.TriggeredReportRequest" [
    ("request_id", vint (read_u4be rt));
    ("radio_ip", p_RadioIp);
    ("start_time", p_Datetimestring);
    ("stop_time", p_Datetimestring);
    ("interval", p_Intervalstring)].

(** hytera/location_protocol.py:286-292 [LocationProtocol.StandardAnswer._read] *)
Definition p_LocationProtocol_StandardAnswer : M pyval := obj "LocationProtocol.StandardAnswer" [
    ("request_id", vint (read_u4be rt));
    ("radio_ip", p_RadioIp);
    ("result", venum LocationProtocol_ResultCodes (read_u2be rt));
    ("gpsdata", p_Gpsdata)].

(** hytera/location_protocol.py:301-309 [LocationProtocol.ConditionReportAnswer._read] *)
Definition p_LocationProtocol_ConditionReportAnswer : M pyval := obj "LocationProtocol.ConditionReportAnswer" [
    ("request_id", vint (read_u4be rt));
    ("radio_ip", p_RadioIp);
    ("trigger_type", venum LocationProtocol_TriggerTypes (read_u1 rt));
    ("result", venum LocationProtocol_ResultCodes (read_u2be rt))].

(** hytera/location_protocol.py:318-320 [LocationProtocol.EmergencyReportStopRequest._read] *)
Definition p_LocationProtocol_EmergencyReportStopRequest : M pyval := obj "LocationProtocol.EmergencyReportStopRequest" [
    ("request_id", vint (read_u4be rt));
    ("radio_ip", p_RadioIp)].

(** hytera/location_protocol.py:329-337 [LocationProtocol.ConditionQuickGpsAnswer._read] *)
Definition p_LocationProtocol_ConditionQuickGpsAnswer : M pyval := obj "LocationProtocol.ConditionQuickGpsAnswer" [
    ("request_id", vint (read_u4be rt));
    ("radio_ip", p_RadioIp);
    ("cmd_type", venum LocationProtocol_CmdTypes (read_u1 rt));
    ("result", venum LocationProtocol_ResultCodes (read_u2be rt))].

(** hytera/location_protocol.py:346-350 [LocationProtocol.TriggeredReport._read] *)
Definition p_LocationProtocol_TriggeredReport : M pyval := obj "LocationProtocol.TriggeredReport" [
    ("request_id", vint (read_u4be rt));
    ("radio_ip", p_RadioIp);
    ("time_remaining", p_Intervalstring);
    ("gpsdata", p_Gpsdata)].

(** hytera/location_protocol.py:359-366 [LocationProtocol.ConditionReportWithRssi._read] *)
Definition p_LocationProtocol_ConditionReportWithRssi : M pyval := obj "LocationProtocol.ConditionReportWithRssi" [
    ("request_id", vint (read_u4be rt));
    ("radio_ip", p_RadioIp);
    ("result", venum LocationProtocol_ResultCodes (read_u2be rt));
    ("gpsdata", p_Gpsdata);
    ("rssi_value", vint (read_s2be rt))].

(** hytera/location_protocol.py:375-380 [LocationProtocol.EmergencyReportStopAnswer._read] *)
Definition p_LocationProtocol_EmergencyReportStopAnswer : M pyval := obj "LocationProtocol.EmergencyReportStopAnswer" [
    ("request_id", vint (read_u4be rt));
    ("radio_ip", p_RadioIp);
    ("result", venum LocationProtocol_ResultCodes (read_u2be rt))].

(** hytera/location_protocol.py:389-391 [LocationProtocol.TriggeredReportStopRequest._read] *)
Definition p_LocationProtocol_TriggeredReportStopRequest : M pyval := obj "LocationProtocol.TriggeredReportStopRequest" [
    ("request_id", vint (read_u4be rt));
    ("radio_ip", p_RadioIp)].

(** hytera/location_protocol.py:71-134 [LocationProtocol._read] *)
Definition p_LocationProtocol : M pyval :=
    opcode_header <- venum LocationProtocol_LpSpecificTypes (read_u2be rt);;
    message_length <- read_u2be rt;;
    data <- (if eq_member LocationProtocol_LpSpecificTypes "triggered_report_answer" opcode_header then some (p_LocationProtocol_TriggeredReportAnswer)
        else if eq_member LocationProtocol_LpSpecificTypes "emergency_report_stop_request" opcode_header then some (p_LocationProtocol_EmergencyReportStopRequest)
        else if eq_member LocationProtocol_LpSpecificTypes "condition_quick_gps_request" opcode_header then some (p_LocationProtocol_ConditionQuickGpsRequest)
        else if eq_member LocationProtocol_LpSpecificTypes "condition_report" opcode_header then some (p_LocationProtocol_ConditionReport)
        else if eq_member LocationProtocol_LpSpecificTypes "emergency_report_stop_answer" opcode_header then some (p_LocationProtocol_EmergencyReportStopAnswer)
        else if eq_member LocationProtocol_LpSpecificTypes "condition_report_answer" opcode_header then some (p_LocationProtocol_ConditionReportAnswer)
        else if eq_member LocationProtocol_LpSpecificTypes "standard_answer" opcode_header then some (p_LocationProtocol_StandardAnswer)
        else if eq_member LocationProtocol_LpSpecificTypes "standard_request" opcode_header then some (p_LocationProtocol_StandardRequest)
        else if eq_member LocationProtocol_LpSpecificTypes "triggered_report" opcode_header then some (p_LocationProtocol_TriggeredReport)
        else if eq_member LocationProtocol_LpSpecificTypes "triggered_report_stop_answer" opcode_header then some (p_LocationProtocol_TriggeredReportStopAnswer)
        else if eq_member LocationProtocol_LpSpecificTypes "standard_answer_with_rssi" opcode_header then some (p_LocationProtocol_StandardAnswerWithRssi)
        else if eq_member LocationProtocol_LpSpecificTypes "condition_report_with_rssi" opcode_header then some (p_LocationProtocol_ConditionReportWithRssi)
        else if eq_member LocationProtocol_LpSpecificTypes "triggered_report_stop_request" opcode_header then some (p_LocationProtocol_TriggeredReportStopRequest)
        else if eq_member LocationProtocol_LpSpecificTypes "emergency_report" opcode_header then some (p_LocationProtocol_EmergencyReport)
        else if eq_member LocationProtocol_LpSpecificTypes "condition_report_request" opcode_header then some (p_LocationProtocol_ConditionReportRequest)
        else if eq_member LocationProtocol_LpSpecificTypes "triggered_report_request" opcode_header then some (p_LocationProtocol_TriggeredReportRequest)
        else if eq_member LocationProtocol_LpSpecificTypes "condition_quick_gps_answer" opcode_header then some (p_LocationProtocol_ConditionQuickGpsAnswer)
        else none);;
    ret (VObj "LocationProtocol" ([("opcode_header", opcode_header); ("message_length", VInt message_length)] ++ opt "data" data)).

(** hytera/location_protocol.py:394-404 [LocationProtocol.opcode] *)
Definition LocationProtocol_opcode : live -> res pyval * live := memo "opcode" (fun a =>
    pos_ <- io_pos;;
    io_seek rt 0;;;
    v <- venum LocationProtocol_LpGeneralTypes (read_u1 rt);;
    io_seek rt pos_;;;
    ret v).

(** * hytera/telemetry_protocol.py *)

(** hytera/telemetry_protocol.py:94-106 [TelemetryProtocol.StandardStatusReport._read] *)
Definition p_TelemetryProtocol_StandardStatusReport : M pyval := obj "TelemetryProtocol.StandardStatusReport" [
    ("source_ip", p_RadioIp);
    ("target_ip", p_RadioIp);
    ("pc_flag", venum TelemetryProtocol_PcFlagTypes (read_u1 rt));
    ("call_type", venum TelemetryProtocol_CallTypes (read_u1 rt));
    ("vio_select", vbytes rt 1);
    ("result", venum TelemetryProtocol_ResultTypes (read_u1 rt))].

(** hytera/telemetry_protocol.py:115-120 [TelemetryProtocol.VioExtendedStatus._read] *)
Definition p_TelemetryProtocol_VioExtendedStatus : M pyval :=
    result <- venum TelemetryProtocol_ResultTypes (read_u1 rt);;
    message_length <- read_u2be rt;;
    message <- read_str rt UTF16LE (message_length);;
    ret (VObj "TelemetryProtocol.VioExtendedStatus" ([("result", result); ("message_length", VInt message_length); ("message", VStr message)])).

(** hytera/telemetry_protocol.py:129-141 [TelemetryProtocol.RemoteControlAnswer._read] *)
Definition p_TelemetryProtocol_RemoteControlAnswer : M pyval := obj "TelemetryProtocol.RemoteControlAnswer" [
    ("source_ip", p_RadioIp);
    ("target_ip", p_RadioIp);
    ("pc_flag", venum TelemetryProtocol_PcFlagTypes (read_u1 rt));
    ("call_type", venum TelemetryProtocol_CallTypes (read_u1 rt));
    ("vio_select", vbytes rt 1);
    ("result", venum TelemetryProtocol_ControlResultTypes (read_u1 rt))].

(** hytera/telemetry_protocol.py:150-162 [TelemetryProtocol.RemoteControlRequest._read] *)
Definition p_TelemetryProtocol_RemoteControlRequest : M pyval := obj "TelemetryProtocol.RemoteControlRequest" [
    ("source_ip", p_RadioIp);
    ("target_ip", p_RadioIp);
    ("pc_flag", venum TelemetryProtocol_PcFlagTypes (read_u1 rt));
    ("call_type", venum TelemetryProtocol_CallTypes (read_u1 rt));
    ("vio_select", vbytes rt 1);
    ("operation", venum TelemetryProtocol_OperationTypes (read_u1 rt))].

(** hytera/telemetry_protocol.py:171-183 [TelemetryProtocol.ExtendedStatusReport._read] *)
Definition p_TelemetryProtocol_ExtendedStatusReport : M pyval := obj "TelemetryProtocol.ExtendedStatusReport" [
    ("source_ip", p_RadioIp);
    ("target_ip", p_RadioIp);
    ("pc_flag", venum TelemetryProtocol_PcFlagTypes (read_u1 rt));
    ("call_type", venum TelemetryProtocol_CallTypes (read_u1 rt));
    ("vio_select", vbytes rt 1);
    ("result_messages", p_TelemetryProtocol_VioExtendedStatus)].

(** hytera/telemetry_protocol.py:192-201 [TelemetryProtocol.StandardStatusRequest._read] *)
Definition p_TelemetryProtocol_StandardStatusRequest : M pyval := obj "TelemetryProtocol.StandardStatusRequest" [
    ("source_ip", p_RadioIp);
    ("target_ip", p_RadioIp);
    ("pc_flag", venum TelemetryProtocol_PcFlagTypes (read_u1 rt));
    ("call_type", venum TelemetryProtocol_CallTypes (read_u1 rt));
    ("vio_select", vbytes rt 1)].

(** hytera/telemetry_protocol.py:204-214 [TelemetryProtocol.specific_service], the computation behind
    the memo test; evaluated exactly once, during [_read], which records the memo attribute
    [_m_specific_service].  Note [seek(0)]: position 0 of the stream, wherever the message starts. *)
Definition TelemetryProtocol_specific_service : M pyval :=
    pos_ <- io_pos;;
    io_seek rt 0;;;
    v <- venum TelemetryProtocol_ServiceSpecificTypes (read_u2be rt);;
    io_seek rt pos_;;;
    ret v.

(** hytera/telemetry_protocol.py:59-85 [TelemetryProtocol._read] *)
Definition p_TelemetryProtocol : M pyval :=
    service_type_opcode <- venum TelemetryProtocol_ServiceTypes (read_u1 rt);;
    specific_service_opcode <- read_u1 rt;;
    message_length <- read_u2be rt;;
    on_ <- TelemetryProtocol_specific_service;;
    data <- (if eq_member TelemetryProtocol_ServiceSpecificTypes "standard_status_request" on_ then some (p_TelemetryProtocol_StandardStatusRequest)
        else if eq_member TelemetryProtocol_ServiceSpecificTypes "remote_control_answer" on_ then some (p_TelemetryProtocol_RemoteControlAnswer)
        else if eq_member TelemetryProtocol_ServiceSpecificTypes "extended_status_report" on_ then some (p_TelemetryProtocol_ExtendedStatusReport)
        else if eq_member TelemetryProtocol_ServiceSpecificTypes "remote_control_request" on_ then some (p_TelemetryProtocol_RemoteControlRequest)
        else if eq_member TelemetryProtocol_ServiceSpecificTypes "standard_status_report" on_ then some (p_TelemetryProtocol_StandardStatusReport)
        else none);;
    ret (VObj "TelemetryProtocol" ([("service_type_opcode", service_type_opcode); ("specific_service_opcode", VInt specific_service_opcode); ("message_length", VInt message_length); ("_m_specific_service", on_)] ++ opt "data" data)).


(** * hytera/radio_control_protocol.py *)

(** hytera/radio_control_protocol.py:146-149 [RadioControlProtocol.BroadcastStatusConfigurationReply._read] *)
Definition p_RadioControlProtocol_BroadcastStatusConfigurationReply : M pyval := obj "RadioControlProtocol.BroadcastStatusConfigurationReply" [
    ("result", venum RadioControlProtocol_ReplyResults (read_u1 rt))].

(** hytera/radio_control_protocol.py:158-160 [RadioControlProtocol.BroadcastConfiguration._read] *)
Definition p_RadioControlProtocol_BroadcastConfiguration : M pyval := obj "RadioControlProtocol.BroadcastConfiguration" [
    ("config_operation", vint (read_u1 rt));
    ("config_target", vint (read_u1 rt))].

(** hytera/radio_control_protocol.py:171-179 [RadioControlProtocol.BroadcastStatusConfigurationRequest._read] *)
Definition p_RadioControlProtocol_BroadcastStatusConfigurationRequest : M pyval :=
    num_broadcast_configuration <- read_u1 rt;;
    broadcast_configuration <- for_range num_broadcast_configuration p_RadioControlProtocol_BroadcastConfiguration;;
    ret (VObj "RadioControlProtocol.BroadcastStatusConfigurationRequest" [("num_broadcast_configuration", VInt num_broadcast_configuration); ("broadcast_configuration", VList broadcast_configuration)]).

(** hytera/radio_control_protocol.py:188-196 [RadioControlProtocol.RadioIdentificationReply._read] *)
Definition p_RadioControlProtocol_RadioIdentificationReply (parent_message_length : Z) : M pyval :=
    header <- (if 6 <=? parent_message_length then some (vbytes rt 6) else none);;
    text <- (if 198 <=? parent_message_length then some (vstr rt UTF16BE 192) else none);;
    footer <- (if 206 <=? parent_message_length then some (vbytes rt 8) else none);;
    ret (VObj "RadioControlProtocol.RadioIdentificationReply" (opt "header" header ++ opt "text" text ++ opt "footer" footer)).

(** hytera/radio_control_protocol.py:205-206 [RadioControlProtocol.GenericData._read] *)
Definition p_RadioControlProtocol_GenericData (parent_message_length : Z) : M pyval :=
    data <- read_bytes rt parent_message_length;;
    ret (VObj "RadioControlProtocol.GenericData" [("data", VBytes data)]).

(** hytera/radio_control_protocol.py:215-219 [RadioControlProtocol.CallRequest._read] *)
Definition p_RadioControlProtocol_CallRequest : M pyval := obj "RadioControlProtocol.CallRequest" [
    ("call_type", venum RadioControlProtocol_CallTypes (read_u1 rt));
    ("target_id", vint (read_u4le rt))].

(** hytera/radio_control_protocol.py:230-233 [RadioControlProtocol.RemoveRadioReply._read] *)
Definition p_RadioControlProtocol_RemoveRadioReply : M pyval := obj "RadioControlProtocol.RemoveRadioReply" [
    ("result", venum RadioControlProtocol_ReplyResults (read_u1 rt))].

(** hytera/radio_control_protocol.py:246-247 [RadioControlProtocol.RemoveRadioRequest._read] *)
Definition p_RadioControlProtocol_RemoveRadioRequest : M pyval := ret (VObj "RadioControlProtocol.RemoveRadioRequest" []).

(** hytera/radio_control_protocol.py:256-259 [RadioControlProtocol.CallReply._read] *)
Definition p_RadioControlProtocol_CallReply : M pyval := obj "RadioControlProtocol.CallReply" [
    ("result", venum RadioControlProtocol_ReplyResults (read_u1 rt))].

(** hytera/radio_control_protocol.py:100-137 [RadioControlProtocol._read] *)
Definition p_RadioControlProtocol : M pyval :=
    service_type <- venum RadioControlProtocol_ServiceTypes (read_u2le rt);;
    message_length <- read_u2le rt;;
    data <- (if eq_member RadioControlProtocol_ServiceTypes "call_reply" service_type then some (p_RadioControlProtocol_CallReply)
        else if eq_member RadioControlProtocol_ServiceTypes "radio_identification_reply" service_type then some (p_RadioControlProtocol_RadioIdentificationReply message_length)
        else if eq_member RadioControlProtocol_ServiceTypes "broadcast_status_configuration_request" service_type then some (p_RadioControlProtocol_BroadcastStatusConfigurationRequest)
        else if eq_member RadioControlProtocol_ServiceTypes "call_request" service_type then some (p_RadioControlProtocol_CallRequest)
        else if eq_member RadioControlProtocol_ServiceTypes "remove_radio_request" service_type then some (p_RadioControlProtocol_RemoveRadioRequest)
        else if eq_member RadioControlProtocol_ServiceTypes "broadcast_status_configuration_reply" service_type then some (p_RadioControlProtocol_BroadcastStatusConfigurationReply)
        else if eq_member RadioControlProtocol_ServiceTypes "remove_radio_reply" service_type then some (p_RadioControlProtocol_RemoveRadioReply)
        else some (p_RadioControlProtocol_GenericData message_length));;
    ret (VObj "RadioControlProtocol" ([("service_type", service_type); ("message_length", VInt message_length)] ++ opt "data" data)).

(** * hytera/hytera_dmr_application_protocol.py *)

(** hytera/hytera_dmr_application_protocol.py:86-87 [HyteraDmrApplicationProtocol.UndefinedProtocol._read] *)
Definition p_HyteraDmrApplicationProtocol_UndefinedProtocol : M pyval := obj "HyteraDmrApplicationProtocol.UndefinedProtocol" [
    ("data", vfull rt)].

(** hytera/hytera_dmr_application_protocol.py:40-77 [HyteraDmrApplicationProtocol._read] *)
Definition p_HyteraDmrApplicationProtocol : M pyval :=
    is_reliable_message <- read_flag;;
    message_header <- venum HyteraDmrApplicationProtocol_MessageHeaderTypes (read_bits 7);;
    align_to_byte;;;
    data <- (if eq_member HyteraDmrApplicationProtocol_MessageHeaderTypes "radio_registration" message_header then some (p_RadioRegistrationService)
        else if eq_member HyteraDmrApplicationProtocol_MessageHeaderTypes "telemetry_protocol" message_header then some (p_TelemetryProtocol)
        else if eq_member HyteraDmrApplicationProtocol_MessageHeaderTypes "radio_control_protocol" message_header then some (p_RadioControlProtocol)
        else if eq_member HyteraDmrApplicationProtocol_MessageHeaderTypes "text_message_protocol" message_header then some (p_TextMessageProtocol)
        else if eq_member HyteraDmrApplicationProtocol_MessageHeaderTypes "data_delivery_states" message_header then some (p_DataDeliveryStates)
        else if eq_member HyteraDmrApplicationProtocol_MessageHeaderTypes "location_protocol" message_header then some (p_LocationProtocol)
        else if eq_member HyteraDmrApplicationProtocol_MessageHeaderTypes "data_transmit_protocol" message_header then some (p_DataTransmitProtocol)
        else none);;
    checksum <- read_u1 rt;;
    message_footer <- expect_bytes rt (B [3]) "/seq/4";;
    ret (VObj "HyteraDmrApplicationProtocol" ([("is_reliable_message", VBool is_reliable_message); ("message_header", message_header)] ++ opt "data" data ++ [("checksum", VInt checksum); ("message_footer", message_footer)])).

(** * hytera/hytera_radio_network_protocol.py *)

(** hytera/hytera_radio_network_protocol.py:34-53 [HyteraRadioNetworkProtocol._read] *)
Definition p_HyteraRadioNetworkProtocol : M pyval :=
    header_identifier <- expect_bytes rt (B [126]) "/seq/0";;
    version <- read_u1 rt;;
    block <- read_u1 rt;;
    opcode <- venum HyteraRadioNetworkProtocol_Opcodes (read_u1 rt);;
    source_id <- read_u1 rt;;
    destination_id <- read_u1 rt;;
    packet_number <- read_u2be rt;;
    hrnp_packet_length <- read_u2be rt;;
    checksum <- read_u2be rt;;
    data <- (if eq_member HyteraRadioNetworkProtocol_Opcodes "data" opcode then some (p_HyteraDmrApplicationProtocol)
        else none);;
    ret (VObj "HyteraRadioNetworkProtocol" ([("header_identifier", header_identifier); ("version", VInt version); ("block", VInt block); ("opcode", opcode); ("source_id", VInt source_id); ("destination_id", VInt destination_id); ("packet_number", VInt packet_number); ("hrnp_packet_length", VInt hrnp_packet_length); ("checksum", VInt checksum)] ++ opt "data" data)).

(** * hytera/hytera_simple_transport_reliability_protocol.py *)

(** hytera/hytera_simple_transport_reliability_protocol.py:88-96 [HyteraSimpleTransportReliabilityProtocol.Option._read] *)
Definition p_HyteraSimpleTransportReliabilityProtocol_Option : M pyval :=
    expect_more_options <- read_flag;;
    command <- venum HyteraSimpleTransportReliabilityProtocol_OptionCommands (read_bits 7);;
    align_to_byte;;;
    len_option_payload <- read_u1 rt;;
    option_payload <- read_bytes rt (len_option_payload);;
    ret (VObj "HyteraSimpleTransportReliabilityProtocol.Option" ([("expect_more_options", VBool expect_more_options); ("command", command); ("len_option_payload", VInt len_option_payload); ("option_payload", VBytes option_payload)])).

(** hytera/hytera_simple_transport_reliability_protocol.py:51-60: [while True: ...; if not _.expect_more_options: break] *)
Fixpoint hstrp_options (fuel : nat) : M (list pyval) :=
  match fuel with
  | O => fail OutOfFuel
  | S fuel' =>
      o <- p_HyteraSimpleTransportReliabilityProtocol_Option;;
      match getattr "expect_more_options" o with
      | Some (VBool true) => l <- hstrp_options fuel';; ret (o :: l)
      | Some _ => ret [o]
      | None => fail (AttributeError "expect_more_options")
      end
  end.

(** hytera/hytera_simple_transport_reliability_protocol.py:68-75: [while not self._io.is_eof(): ...] *)
Fixpoint hstrp_data (fuel : nat) : M (list pyval) :=
  match fuel with
  | O => fail OutOfFuel
  | S fuel' =>
      eof <- is_eof rt;;
      if eof then ret [] else
      m <- p_HyteraDmrApplicationProtocol;;
      l <- hstrp_data fuel';;
      ret (m :: l)
  end.

(** hytera/hytera_simple_transport_reliability_protocol.py:30-79 [HyteraSimpleTransportReliabilityProtocol._read] *)
Definition p_HyteraSimpleTransportReliabilityProtocol : M pyval :=
    header <- expect_bytes rt (B [50;66]) "/seq/0";;
    version <- read_u1 rt;;
    reserved <- read_bits 2;;
    has_option <- read_flag;;
    is_reject <- read_flag;;
    is_close <- read_flag;;
    is_connect <- read_flag;;
    is_heartbeat <- read_flag;;
    is_ack <- read_flag;;
    align_to_byte;;;
    sequence_number <- read_u2be rt;;
    eof1 <- is_eof rt;;
    options <- (if negb eof1 && negb is_heartbeat && has_option
        then (l <- with_fuel hstrp_options;; ret (Some (VList l))) else none);;
    eof2 <- is_eof rt;;
    data <- (if negb eof2 && negb is_reject && negb is_close && negb is_connect
        then (l <- with_fuel hstrp_data;; ret (Some (VList l))) else none);;
    eof3 <- is_eof rt;;
    extra_data <- (if negb eof3 then some (vfull rt) else none);;
    ret (VObj "HyteraSimpleTransportReliabilityProtocol" ([("header", header); ("version", VInt version); ("reserved", VInt reserved); ("has_option", VBool has_option); ("is_reject", VBool is_reject); ("is_close", VBool is_close); ("is_connect", VBool is_connect); ("is_heartbeat", VBool is_heartbeat); ("is_ack", VBool is_ack); ("sequence_number", VInt sequence_number)] ++ opt "options" options ++ opt "data" data ++ opt "extra_data" extra_data)).

(** * hytera/ip_site_connect_protocol.py *)

(** hytera/ip_site_connect_protocol.py:65-98 [IpSiteConnectProtocol._read] *)
Definition p_IpSiteConnectProtocol : M pyval :=
    a <- seq [
      ("source_port", vbytes rt 2);
      ("fixed_header", expect_bytes rt (B [90;90]) "/seq/1");
      ("sequence_number", vint (read_u1 rt));
      ("reserved_3", vbytes rt 3);
      ("packet_type", venum IpSiteConnectProtocol_PacketTypes (read_u1 rt));
      ("reserved_7a", vbytes rt 7);
      ("timeslot_raw", venum IpSiteConnectProtocol_Timeslots (read_u2be rt));
      ("slot_type", venum IpSiteConnectProtocol_SlotTypes (read_u2be rt));
      ("color_code_raw", vint (read_u2le rt));
      ("frame_type", venum IpSiteConnectProtocol_FrameTypes (read_u2be rt));
      ("reserved_2a", vbytes rt 2);
      ("ipsc_payload", vbytes rt 34);
      ("reserved_2b", vbytes rt 2);
      ("call_type", venum IpSiteConnectProtocol_CallTypes (read_u1 rt));
      ("destination_radio_id_raw", vint (read_u4le rt));
      ("source_radio_id_raw", vint (read_u4le rt));
      ("reserved_1b", vint (read_u1 rt))];;
    eof <- is_eof rt;;
    extra_data <- (if negb eof then some (vfull rt) else none);;
    ret (VObj "IpSiteConnectProtocol" (a ++ opt "extra_data" extra_data)).

(** hytera/ip_site_connect_protocol.py:101-106 [IpSiteConnectProtocol.source_radio_id] *)
Definition IpSiteConnectProtocol_source_radio_id : live -> res pyval * live := memo "source_radio_id" (fun a =>
    raw <- stored_int "source_radio_id_raw" a;; ret (VInt (Z.shiftr raw 8))).

(** hytera/ip_site_connect_protocol.py:109-114 [IpSiteConnectProtocol.destination_radio_id] *)
Definition IpSiteConnectProtocol_destination_radio_id : live -> res pyval * live := memo "destination_radio_id" (fun a =>
    raw <- stored_int "destination_radio_id_raw" a;; ret (VInt (Z.shiftr raw 8))).

(** hytera/ip_site_connect_protocol.py:117-122 [IpSiteConnectProtocol.color_code] *)
Definition IpSiteConnectProtocol_color_code : live -> res pyval * live := memo "color_code" (fun a =>
    raw <- stored_int "color_code_raw" a;; ret (VInt (Z.land raw 15))).

(** hytera/ip_site_connect_protocol.py:125-137 [IpSiteConnectProtocol.is_wakeup] *)
Definition IpSiteConnectProtocol_is_wakeup : live -> res pyval * live := memo "is_wakeup" (fun a =>
    call_type <- stored "call_type" a;;
    slot_type <- stored "slot_type" a;;
    ret (VBool (eq_member IpSiteConnectProtocol_CallTypes "wakeup_call_2" call_type
      || eq_member IpSiteConnectProtocol_CallTypes "wakeup_call_c" call_type
      || eq_member IpSiteConnectProtocol_SlotTypes "slot_type_wakeup_request" slot_type))).

(** * hytera/ip_site_connect_heartbeat.py *)

(** hytera/ip_site_connect_heartbeat.py:39-44 [IpSiteConnectHeartbeat.Keepalive._read] *)
Definition p_IpSiteConnectHeartbeat_Keepalive : M pyval := obj "IpSiteConnectHeartbeat.Keepalive" [
    ("nullbyte", expect_bytes rt (B [0]) "/types/keepalive/seq/0")].

(** hytera/ip_site_connect_heartbeat.py:53-80 [IpSiteConnectHeartbeat.PingPong._read] *)
Definition p_IpSiteConnectHeartbeat_PingPong : M pyval := obj "IpSiteConnectHeartbeat.PingPong" [
    ("header", expect_bytes rt (B [90;90;90;90]) "/types/ping_pong/seq/0");
    ("heartbeat_identitier", expect_bytes rt (B [10;0;0;0;20]) "/types/ping_pong/seq/1");
    ("nullbytes", expect_bytes rt (B [0;0;0]) "/types/ping_pong/seq/2");
    ("heartbeat_seq", vint (read_u1 rt));
    ("tail", expect_bytes rt (B [90;89;90;0;0;0;0]) "/types/ping_pong/seq/4")].

(** hytera/ip_site_connect_heartbeat.py:89-90 [IpSiteConnectHeartbeat.Unknown._read] *)
Definition p_IpSiteConnectHeartbeat_Unknown : M pyval := obj "IpSiteConnectHeartbeat.Unknown" [
    ("data", vfull rt)].

(** hytera/ip_site_connect_heartbeat.py:23-30 [IpSiteConnectHeartbeat._read] *)
Definition p_IpSiteConnectHeartbeat : M pyval :=
    on_ <- io_size;;
    data <- (if on_ =? 1 then p_IpSiteConnectHeartbeat_Keepalive
        else if on_ =? 20 then p_IpSiteConnectHeartbeat_PingPong
        else p_IpSiteConnectHeartbeat_Unknown);;
    ret (VObj "IpSiteConnectHeartbeat" [("data", data)]).

(** * hytera/real_time_transport_protocol.py *)

(** hytera/real_time_transport_protocol.py:57-74 [RealTimeTransportProtocol.FixedHeader._read] *)
Definition p_RealTimeTransportProtocol_FixedHeader : M pyval :=
    version <- read_bits 2;;
    (if version =? 2 then ret tt
     else fail (ValidationNotEqualError (VInt 2) (VInt version) "/types/fixed_header/seq/0"));;;
    padding <- read_flag;;
    extension <- read_flag;;
    num_csrc <- read_bits 4;;
    marker <- read_flag;;
    payload_type <- read_bits 7;;
    align_to_byte;;;
    sequence_number <- read_u2be rt;;
    timestamp <- read_u4be rt;;
    ssrc <- read_u4be rt;;
    csrc <- for_range num_csrc (vint (read_u4be rt));;
    ret (VObj "RealTimeTransportProtocol.FixedHeader" [("version", VInt version); ("padding", VBool padding); ("extension", VBool extension); ("num_csrc", VInt num_csrc); ("marker", VBool marker); ("payload_type", VInt payload_type); ("sequence_number", VInt sequence_number); ("timestamp", VInt timestamp); ("ssrc", VInt ssrc); ("csrc", VList csrc)]).

(** hytera/real_time_transport_protocol.py:83-94 [RealTimeTransportProtocol.HeaderExtension._read] *)
Definition p_RealTimeTransportProtocol_HeaderExtension : M pyval := obj "RealTimeTransportProtocol.HeaderExtension" [
    ("header_identifier", vint (read_u2be rt));
    ("length", vint (read_u2be rt));
    ("slot", vbits 7);
    ("last_flag", vflag);
    ("source_id", aligned (p_RadioId));
    ("destination_id", p_RadioId);
    ("call_type", venum RealTimeTransportProtocol_CallTypes (read_u1 rt));
    ("reserved", vbytes rt 4)].

(** hytera/real_time_transport_protocol.py:97-107 [RealTimeTransportProtocol.len_padding_if_exists], the
    computation behind the memo test, for a set padding bit *)
Definition RealTimeTransportProtocol_len_padding_if_exists : M Z :=
    pos_ <- io_pos;;
    size_ <- io_size;;
    io_seek rt (size_ - 1);;;
    n <- read_u1 rt;;
    io_seek rt pos_;;;
    ret n.

(** hytera/real_time_transport_protocol.py:110-117 [RealTimeTransportProtocol.len_padding], first
    evaluation (during [_read]); returns the memo attributes it leaves and the value *)
Definition RealTimeTransportProtocol_len_padding (has_padding : bool) : M (attrs * Z) :=
    if has_padding
    then n <- RealTimeTransportProtocol_len_padding_if_exists;;
         ret ([("_m_len_padding_if_exists", VInt n); ("_m_len_padding", VInt n)], n)
    else ret ([("_m_len_padding", VInt 0)], 0).

(** [self.fixed_header.x] for a boolean attribute *)
Definition flag_of (x : string) (o : pyval) : M bool :=
    match getattr x o with Some (VBool v) => ret v | _ => fail (AttributeError x) end.

(** hytera/real_time_transport_protocol.py:35-48 [RealTimeTransportProtocol._read] *)
Definition p_RealTimeTransportProtocol : M pyval :=
    fixed_header <- p_RealTimeTransportProtocol_FixedHeader;;
    has_extension <- flag_of "extension" fixed_header;;
    header_extension <- (if has_extension then some p_RealTimeTransportProtocol_HeaderExtension else none);;
    size_ <- io_size;;
    pos_ <- io_pos;;
    has_padding <- flag_of "padding" fixed_header;;
    lp <- RealTimeTransportProtocol_len_padding has_padding;;
    audio_data <- read_bytes rt ((size_ - pos_) - snd lp);;
    padding <- (if has_padding then some (vbytes rt (snd lp)) else none);;
    ret (VObj "RealTimeTransportProtocol" ([("fixed_header", fixed_header)] ++ opt "header_extension" header_extension ++ fst lp ++ [("audio_data", VBytes audio_data)] ++ opt "padding" padding)).




End Hytera.
