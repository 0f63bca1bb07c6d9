(** The messages of fixed size: class, parser, size in bytes, table of fields. *)
From Verif Require Import PyBase Runtime Codec CodecSpec CodecProofs Spec DecSpec BitSpec RuntimeProofs DecProofs TilesProofs Enums EnumProofs Getters EtsiModel EtsiSpec EtsiProofs HomebrewModel HomebrewSpec HomebrewProofs HyteraModel HyteraSpec HyteraRuns HyteraProofs MotorolaModel MotorolaSpec MotorolaProofs.
From Coq Require Import ZifyBool.
Ltac Zify.zify_post_hook ::= Z.div_mod_to_equations.
Open Scope string_scope.
Open Scope list_scope.
Open Scope Z_scope.

Record layout := Layout { ly_class : string; ly_parser : M pyval; ly_size : Z; ly_table : list field }.

Definition fixed_layouts (rt : runtime) : list layout := [
    Layout "DmrCsbk.NegativeAckResponseData" (p_DmrCsbk_NegativeAckResponseData) 8 L_DmrCsbk_NegativeAckResponseData;
    Layout "DmrCsbk.ServiceOptions" (p_DmrCsbk_ServiceOptions) 1 L_DmrCsbk_ServiceOptions;
    Layout "DmrCsbk.UnitToUnitVoiceRequestData" (p_DmrCsbk_UnitToUnitVoiceRequestData) 8 L_DmrCsbk_UnitToUnitVoiceRequestData;
    Layout "DmrCsbk.PreambleData" (p_DmrCsbk_PreambleData) 8 L_DmrCsbk_PreambleData;
    Layout "DmrCsbk.ChannelTimingData" (p_DmrCsbk_ChannelTimingData) 8 L_DmrCsbk_ChannelTimingData;
    Layout "DmrCsbk.BsOutboundActivationData" (p_DmrCsbk_BsOutboundActivationData) 8 L_DmrCsbk_BsOutboundActivationData;
    Layout "DmrCsbk.UnitToUnitVoiceAnswerData" (p_DmrCsbk_UnitToUnitVoiceAnswerData) 8 L_DmrCsbk_UnitToUnitVoiceAnswerData;
    Layout "DmrData.Rate1LastBlockUnconfirmed" (p_DmrData_Rate1LastBlockUnconfirmed rt) 24 L_DmrData_Rate1LastBlockUnconfirmed;
    Layout "DmrData.Rate12LastBlockConfirmed" (p_DmrData_Rate12LastBlockConfirmed rt) 12 L_DmrData_Rate12LastBlockConfirmed;
    Layout "DmrData.Rate12Confirmed" (p_DmrData_Rate12Confirmed rt) 12 L_DmrData_Rate12Confirmed;
    Layout "DmrData.Rate34LastBlockUnconfirmed" (p_DmrData_Rate34LastBlockUnconfirmed rt) 18 L_DmrData_Rate34LastBlockUnconfirmed;
    Layout "DmrData.Rate1LastBlockConfirmed" (p_DmrData_Rate1LastBlockConfirmed rt) 24 L_DmrData_Rate1LastBlockConfirmed;
    Layout "DmrData.Rate1Unconfirmed" (p_DmrData_Rate1Unconfirmed rt) 24 L_DmrData_Rate1Unconfirmed;
    Layout "DmrData.UdtLastBlock" (p_DmrData_UdtLastBlock rt) 12 L_DmrData_UdtLastBlock;
    Layout "DmrData.Rate34Confirmed" (p_DmrData_Rate34Confirmed rt) 18 L_DmrData_Rate34Confirmed;
    Layout "DmrData.Rate34LastBlockConfirmed" (p_DmrData_Rate34LastBlockConfirmed rt) 18 L_DmrData_Rate34LastBlockConfirmed;
    Layout "DmrData.Rate34Unconfirmed" (p_DmrData_Rate34Unconfirmed rt) 18 L_DmrData_Rate34Unconfirmed;
    Layout "DmrData.Rate12LastBlockUnconfirmed" (p_DmrData_Rate12LastBlockUnconfirmed rt) 12 L_DmrData_Rate12LastBlockUnconfirmed;
    Layout "DmrData.Rate1Confirmed" (p_DmrData_Rate1Confirmed rt) 24 L_DmrData_Rate1Confirmed;
    Layout "DmrData.Rate12Unconfirmed" (p_DmrData_Rate12Unconfirmed rt) 12 L_DmrData_Rate12Unconfirmed;
    Layout "DmrDataHeader.DataHeaderShortRaw" (p_DmrDataHeader_DataHeaderShortRaw rt) 12 L_DmrDataHeader_DataHeaderShortRaw;
    Layout "DmrDataHeader.DataHeaderProprietary" (p_DmrDataHeader_DataHeaderProprietary rt) 12 L_DmrDataHeader_DataHeaderProprietary;
    Layout "DmrDataHeader.DataHeaderShortStatusPrecoded" (p_DmrDataHeader_DataHeaderShortStatusPrecoded rt) 12 L_DmrDataHeader_DataHeaderShortStatusPrecoded;
    Layout "DmrDataHeader.DataHeaderResponse" (p_DmrDataHeader_DataHeaderResponse rt) 12 L_DmrDataHeader_DataHeaderResponse;
    Layout "DmrDataHeader.DataHeaderConfirmed" (p_DmrDataHeader_DataHeaderConfirmed rt) 12 L_DmrDataHeader_DataHeaderConfirmed;
    Layout "DmrDataHeader.DataHeaderUnconfirmed" (p_DmrDataHeader_DataHeaderUnconfirmed rt) 12 L_DmrDataHeader_DataHeaderUnconfirmed;
    Layout "DmrDataHeader.DataHeaderShortDefined" (p_DmrDataHeader_DataHeaderShortDefined rt) 12 L_DmrDataHeader_DataHeaderShortDefined;
    Layout "DmrDataHeader.DataHeaderUdt" (p_DmrDataHeader_DataHeaderUdt rt) 12 L_DmrDataHeader_DataHeaderUdt;
    Layout "FullLinkControl.GpsInfoLcPdu" (p_FullLinkControl_GpsInfoLcPdu) 7 L_FullLinkControl_GpsInfoLcPdu;
    Layout "FullLinkControl.GroupVoiceChannelUser" (p_FullLinkControl_GroupVoiceChannelUser) 7 L_FullLinkControl_GroupVoiceChannelUser;
    Layout "FullLinkControl.UnitToUnitVoiceChannelUser" (p_FullLinkControl_UnitToUnitVoiceChannelUser) 7 L_FullLinkControl_UnitToUnitVoiceChannelUser;
    Layout "FullLinkControl.TalkerAliasHeader" (p_FullLinkControl_TalkerAliasHeader) 7 L_FullLinkControl_TalkerAliasHeader;
    Layout "FullLinkControl.TalkerAliasContinuation" (p_FullLinkControl_TalkerAliasContinuation) 7 L_FullLinkControl_TalkerAliasContinuation;
    Layout "Homebrew2015.TypeMasterPing" (p_Homebrew2015_TypeMasterPing rt) 7 L_Homebrew2015_TypeMasterPing;
    Layout "Homebrew2015.TypeRepeaterPong" (p_Homebrew2015_TypeRepeaterPong rt) 7 L_Homebrew2015_TypeRepeaterPong;
    Layout "Homebrew2015.TypeRepeaterLoginResponse" (p_Homebrew2015_TypeRepeaterLoginResponse rt) 36 L_Homebrew2015_TypeRepeaterLoginResponse;
    Layout "Homebrew2015.TypeRepeaterLoginRequest" (p_Homebrew2015_TypeRepeaterLoginRequest rt) 4 L_Homebrew2015_TypeRepeaterLoginRequest;
    Layout "Homebrew2015.TypeMasterNotAccept" (p_Homebrew2015_TypeMasterNotAccept rt) 6 L_Homebrew2015_TypeMasterNotAccept;
    Layout "Homebrew2015.TypeMasterClosing" (p_Homebrew2015_TypeMasterClosing rt) 5 L_Homebrew2015_TypeMasterClosing;
    Layout "Homebrew2015.TypeRepeaterClosing" (p_Homebrew2015_TypeRepeaterClosing rt) 5 L_Homebrew2015_TypeRepeaterClosing;
    Layout "Mmdvm2020.TypeMasterPong" (p_Mmdvm2020_TypeMasterPong rt) 7 L_Mmdvm2020_TypeMasterPong;
    Layout "Mmdvm2020.TypeRadioPosition" (p_Mmdvm2020_TypeRadioPosition) 10 L_Mmdvm2020_TypeRadioPosition;
    Layout "Mmdvm2020.TypeTalkerAlias" (p_Mmdvm2020_TypeTalkerAlias rt) 12 L_Mmdvm2020_TypeTalkerAlias;
    Layout "Mmdvm2020.TypeRepeaterLoginResponse" (p_Mmdvm2020_TypeRepeaterLoginResponse rt) 36 L_Mmdvm2020_TypeRepeaterLoginResponse;
    Layout "Mmdvm2020.TypeRepeaterLoginRequest" (p_Mmdvm2020_TypeRepeaterLoginRequest rt) 4 L_Mmdvm2020_TypeRepeaterLoginRequest;
    Layout "Mmdvm2020.TypeMasterNotAccept" (p_Mmdvm2020_TypeMasterNotAccept rt) 6 L_Mmdvm2020_TypeMasterNotAccept;
    Layout "Mmdvm2020.TypeMasterRepeaterAck" (p_Mmdvm2020_TypeMasterRepeaterAck rt) 6 L_Mmdvm2020_TypeMasterRepeaterAck;
    Layout "Mmdvm2020.TypeMasterClosing" (p_Mmdvm2020_TypeMasterClosing rt) 5 L_Mmdvm2020_TypeMasterClosing;
    Layout "Mmdvm2020.TypeRepeaterClosing" (p_Mmdvm2020_TypeRepeaterClosing rt) 5 L_Mmdvm2020_TypeRepeaterClosing;
    Layout "Mmdvm2020.TypeRepeaterPing" (p_Mmdvm2020_TypeRepeaterPing rt) 7 L_Mmdvm2020_TypeRepeaterPing;
    Layout "RadioIp" (p_RadioIp rt) 4 L_RadioIp;
    Layout "RadioId" (p_RadioId rt) 4 L_RadioId;
    Layout "Datetimestring" (p_Datetimestring rt) 14 L_Datetimestring;
    Layout "Intervalstring" (p_Intervalstring rt) 8 L_Intervalstring;
    Layout "Gpsdata" (p_Gpsdata rt) 40 L_Gpsdata;
    Layout "DataDeliveryStates" (p_DataDeliveryStates rt) 11 L_DataDeliveryStates;
    Layout "DataTransmitProtocol.LastDataSlice" (p_DataTransmitProtocol_LastDataSlice rt) 8 L_DataTransmitProtocol_LastDataSlice;
    Layout "DataTransmitProtocol.DataSliceAnswer" (p_DataTransmitProtocol_DataSliceAnswer rt) 11 L_DataTransmitProtocol_DataSliceAnswer;
    Layout "DataTransmitProtocol.LastDataSliceAnswer" (p_DataTransmitProtocol_LastDataSliceAnswer rt) 9 L_DataTransmitProtocol_LastDataSliceAnswer;
    Layout "DataTransmitProtocol.DtpAnswer" (p_DataTransmitProtocol_DtpAnswer rt) 9 L_DataTransmitProtocol_DtpAnswer;
    Layout "LocationProtocol.TriggeredReportStopAnswer" (p_LocationProtocol_TriggeredReportStopAnswer rt) 10 L_LocationProtocol_TriggeredReportStopAnswer;
    Layout "LocationProtocol.ConditionReportRequest" (p_LocationProtocol_ConditionReportRequest rt) 57 L_LocationProtocol_ConditionReportRequest;
    Layout "LocationProtocol.QuickGpsPayload" (p_LocationProtocol_QuickGpsPayload rt) 41 L_LocationProtocol_QuickGpsPayload;
    Layout "LocationProtocol.ConditionReport" (p_LocationProtocol_ConditionReport rt) 48 L_LocationProtocol_ConditionReport;
    Layout "LocationProtocol.EmergencyReport" (p_LocationProtocol_EmergencyReport rt) 45 L_LocationProtocol_EmergencyReport;
    Layout "LocationProtocol.TriggeredReportAnswer" (p_LocationProtocol_TriggeredReportAnswer rt) 10 L_LocationProtocol_TriggeredReportAnswer;
    Layout "LocationProtocol.StandardAnswerWithRssi" (p_LocationProtocol_StandardAnswerWithRssi rt) 52 L_LocationProtocol_StandardAnswerWithRssi;
    Layout "LocationProtocol.StandardRequest" (p_LocationProtocol_StandardRequest rt) 8 L_LocationProtocol_StandardRequest;
    Layout "LocationProtocol.TriggeredReportRequest" (p_LocationProtocol_TriggeredReportRequest rt) 44 L_LocationProtocol_TriggeredReportRequest;
    Layout "LocationProtocol.StandardAnswer" (p_LocationProtocol_StandardAnswer rt) 50 L_LocationProtocol_StandardAnswer;
    Layout "LocationProtocol.ConditionReportAnswer" (p_LocationProtocol_ConditionReportAnswer rt) 11 L_LocationProtocol_ConditionReportAnswer;
    Layout "LocationProtocol.EmergencyReportStopRequest" (p_LocationProtocol_EmergencyReportStopRequest rt) 8 L_LocationProtocol_EmergencyReportStopRequest;
    Layout "LocationProtocol.ConditionQuickGpsAnswer" (p_LocationProtocol_ConditionQuickGpsAnswer rt) 11 L_LocationProtocol_ConditionQuickGpsAnswer;
    Layout "LocationProtocol.TriggeredReport" (p_LocationProtocol_TriggeredReport rt) 56 L_LocationProtocol_TriggeredReport;
    Layout "LocationProtocol.ConditionReportWithRssi" (p_LocationProtocol_ConditionReportWithRssi rt) 52 L_LocationProtocol_ConditionReportWithRssi;
    Layout "LocationProtocol.EmergencyReportStopAnswer" (p_LocationProtocol_EmergencyReportStopAnswer rt) 10 L_LocationProtocol_EmergencyReportStopAnswer;
    Layout "LocationProtocol.TriggeredReportStopRequest" (p_LocationProtocol_TriggeredReportStopRequest rt) 8 L_LocationProtocol_TriggeredReportStopRequest;
    Layout "TelemetryProtocol.StandardStatusReport" (p_TelemetryProtocol_StandardStatusReport rt) 12 L_TelemetryProtocol_StandardStatusReport;
    Layout "TelemetryProtocol.RemoteControlAnswer" (p_TelemetryProtocol_RemoteControlAnswer rt) 12 L_TelemetryProtocol_RemoteControlAnswer;
    Layout "TelemetryProtocol.RemoteControlRequest" (p_TelemetryProtocol_RemoteControlRequest rt) 12 L_TelemetryProtocol_RemoteControlRequest;
    Layout "TelemetryProtocol.StandardStatusRequest" (p_TelemetryProtocol_StandardStatusRequest rt) 11 L_TelemetryProtocol_StandardStatusRequest;
    Layout "RadioControlProtocol.BroadcastStatusConfigurationReply" (p_RadioControlProtocol_BroadcastStatusConfigurationReply rt) 1 L_RadioControlProtocol_BroadcastStatusConfigurationReply;
    Layout "RadioControlProtocol.BroadcastConfiguration" (p_RadioControlProtocol_BroadcastConfiguration rt) 2 L_RadioControlProtocol_BroadcastConfiguration;
    Layout "RadioControlProtocol.CallRequest" (p_RadioControlProtocol_CallRequest rt) 5 L_RadioControlProtocol_CallRequest;
    Layout "RadioControlProtocol.RemoveRadioReply" (p_RadioControlProtocol_RemoveRadioReply rt) 1 L_RadioControlProtocol_RemoveRadioReply;
    Layout "RadioControlProtocol.CallReply" (p_RadioControlProtocol_CallReply rt) 1 L_RadioControlProtocol_CallReply;
    Layout "IpSiteConnectHeartbeat.Keepalive" (p_IpSiteConnectHeartbeat_Keepalive rt) 1 L_IpSiteConnectHeartbeat_Keepalive;
    Layout "IpSiteConnectHeartbeat.PingPong" (p_IpSiteConnectHeartbeat_PingPong rt) 20 L_IpSiteConnectHeartbeat_PingPong;
    Layout "RealTimeTransportProtocol.HeaderExtension" (p_RealTimeTransportProtocol_HeaderExtension rt) 18 L_RealTimeTransportProtocol_HeaderExtension;
    Layout "AutomaticRegistrationService.DeviceRegistrationMessageHeader" (p_AutomaticRegistrationService_DeviceRegistrationMessageHeader) 1 L_AutomaticRegistrationService_DeviceRegistrationMessageHeader;
    Layout "AutomaticRegistrationService.MessageHeaderBits" (p_AutomaticRegistrationService_MessageHeaderBits) 1 L_AutomaticRegistrationService_MessageHeaderBits;
    Layout "AutomaticRegistrationService.DeviceRegistrationAcknowledgementFailureReason" (p_AutomaticRegistrationService_DeviceRegistrationAcknowledgementFailureReason) 1 L_AutomaticRegistrationService_DeviceRegistrationAcknowledgementFailureReason;
    Layout "AutomaticRegistrationService.DeviceRegistrationAcknowledgementHeader" (p_AutomaticRegistrationService_DeviceRegistrationAcknowledgementHeader) 1 L_AutomaticRegistrationService_DeviceRegistrationAcknowledgementHeader;
    Layout "TextMessageProtocol.TmsServiceAvailabilityHeader" (p_MotTextMessageProtocol_TmsServiceAvailabilityHeader) 1 L_MotTextMessageProtocol_TmsServiceAvailabilityHeader;
    Layout "TextMessageProtocol.MessageHeaderBits" (p_MotTextMessageProtocol_MessageHeaderBits) 1 L_MotTextMessageProtocol_MessageHeaderBits;
    Layout "MotorolaBinaryXml.Opaque1byteValue" (p_MotorolaBinaryXml_Opaque1byteValue rt) 1 L_MotorolaBinaryXml_Opaque1byteValue;
    Layout "MotorolaBinaryXml.Opaque2byteValue" (p_MotorolaBinaryXml_Opaque2byteValue rt) 2 L_MotorolaBinaryXml_Opaque2byteValue;
    Layout "MotorolaBinaryXml.Opaque3byteValue" (p_MotorolaBinaryXml_Opaque3byteValue rt) 3 L_MotorolaBinaryXml_Opaque3byteValue;
    Layout "MotorolaBinaryXml.Opaque4byteValue" (p_MotorolaBinaryXml_Opaque4byteValue rt) 4 L_MotorolaBinaryXml_Opaque4byteValue;
    Layout "MotorolaBinaryXml.Opaque5byteValue" (p_MotorolaBinaryXml_Opaque5byteValue rt) 5 L_MotorolaBinaryXml_Opaque5byteValue].

Definition layout_ok (l : layout) : Prop :=
  (forall b, from_bytes (ly_parser l) b = object (ly_class l) (ly_table l) b 0) /\
  tiles (ly_table l) 0 = true /\ kinds_ok (ly_table l) = true /\ fs_end (ly_table l) 0 = 8 * ly_size l /\
  Forall (fun f => determined (f_kind f)) (ly_table l).

Ltac layout1 :=
  split; [cbn [ly_parser ly_class ly_table]; intros b; apply from_bytes_obj; seqok|];
  cbn [ly_parser ly_class ly_table ly_size]; split; [reflexivity|]; split; [reflexivity|]; split; [reflexivity|];
  match goal with |- Forall _ ?fs => unfold fs end; determine.

#[local] Hint Extern 1 (runs_at p_DmrCsbk_ServiceOptions _ _) => apply r_DmrCsbk_ServiceOptions; [lia|reflexivity] : runs.

Lemma layouts_ok rt : Forall layout_ok (fixed_layouts rt).
Proof. unfold fixed_layouts. repeat (apply Forall_cons; [layout1|]). apply Forall_nil. Qed.
