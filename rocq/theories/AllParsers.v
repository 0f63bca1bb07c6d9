(** All protocol classes: every generated class that can be parsed on its own with [from_bytes], with the
    model of its parser.  (Nested classes that read attributes of their enclosing message or take a
    constructor argument are parsed only through the class that contains them.) *)
From Verif Require Import PyBase Runtime Codec Enums Getters EtsiModel HomebrewModel HyteraModel MotorolaModel CleanProofs.
Open Scope string_scope.
Open Scope list_scope.
Open Scope Z_scope.

Definition all_parsers : list (string * (runtime -> M pyval)) := [
  ("DmrCsbk_NegativeAckResponseData", (fun _ => p_DmrCsbk_NegativeAckResponseData));
  ("DmrCsbk_ServiceOptions", (fun _ => p_DmrCsbk_ServiceOptions));
  ("DmrCsbk_UnitToUnitVoiceRequestData", (fun _ => p_DmrCsbk_UnitToUnitVoiceRequestData));
  ("DmrCsbk_PreambleData", (fun _ => p_DmrCsbk_PreambleData));
  ("DmrCsbk_ChannelTimingData", (fun _ => p_DmrCsbk_ChannelTimingData));
  ("DmrCsbk_BsOutboundActivationData", (fun _ => p_DmrCsbk_BsOutboundActivationData));
  ("DmrCsbk_UnitToUnitVoiceAnswerData", (fun _ => p_DmrCsbk_UnitToUnitVoiceAnswerData));
  ("DmrCsbk", (fun _ => p_DmrCsbk));
  ("DmrData_Rate1LastBlockUnconfirmed", p_DmrData_Rate1LastBlockUnconfirmed);
  ("DmrData_Rate12LastBlockConfirmed", p_DmrData_Rate12LastBlockConfirmed);
  ("DmrData_Rate12Confirmed", p_DmrData_Rate12Confirmed);
  ("DmrData_Rate34LastBlockUnconfirmed", p_DmrData_Rate34LastBlockUnconfirmed);
  ("DmrData_Rate1LastBlockConfirmed", p_DmrData_Rate1LastBlockConfirmed);
  ("DmrData_Rate1Unconfirmed", p_DmrData_Rate1Unconfirmed);
  ("DmrData_UdtLastBlock", p_DmrData_UdtLastBlock);
  ("DmrData_Rate34Confirmed", p_DmrData_Rate34Confirmed);
  ("DmrData_Rate34LastBlockConfirmed", p_DmrData_Rate34LastBlockConfirmed);
  ("DmrData_Rate34Unconfirmed", p_DmrData_Rate34Unconfirmed);
  ("DmrData_Rate12LastBlockUnconfirmed", p_DmrData_Rate12LastBlockUnconfirmed);
  ("DmrData_Rate1Confirmed", p_DmrData_Rate1Confirmed);
  ("DmrData_Rate12Unconfirmed", p_DmrData_Rate12Unconfirmed);
  ("DmrData", (fun _ => p_DmrData));
  ("DmrDataHeader_DataHeaderShortRaw", p_DmrDataHeader_DataHeaderShortRaw);
  ("DmrDataHeader_DataHeaderProprietary", p_DmrDataHeader_DataHeaderProprietary);
  ("DmrDataHeader_DataHeaderUndefined", p_DmrDataHeader_DataHeaderUndefined);
  ("DmrDataHeader_DataHeaderShortStatusPrecoded", p_DmrDataHeader_DataHeaderShortStatusPrecoded);
  ("DmrDataHeader_DataHeaderResponse", p_DmrDataHeader_DataHeaderResponse);
  ("DmrDataHeader_DataHeaderConfirmed", p_DmrDataHeader_DataHeaderConfirmed);
  ("DmrDataHeader_DataHeaderUnconfirmed", p_DmrDataHeader_DataHeaderUnconfirmed);
  ("DmrDataHeader_DataHeaderShortDefined", p_DmrDataHeader_DataHeaderShortDefined);
  ("DmrDataHeader_DataHeaderUdt", p_DmrDataHeader_DataHeaderUdt);
  ("DmrDataHeader", (fun _ => p_DmrDataHeader));
  ("DmrIpUdp_UdpIpv4CompressedHeader", p_DmrIpUdp_UdpIpv4CompressedHeader);
  ("DmrIpUdp", (fun _ => p_DmrIpUdp));
  ("FullLinkControl_GpsInfoLcPdu", (fun _ => p_FullLinkControl_GpsInfoLcPdu));
  ("FullLinkControl_GroupVoiceChannelUser", (fun _ => p_FullLinkControl_GroupVoiceChannelUser));
  ("FullLinkControl_UnitToUnitVoiceChannelUser", (fun _ => p_FullLinkControl_UnitToUnitVoiceChannelUser));
  ("FullLinkControl_TalkerAliasHeader", (fun _ => p_FullLinkControl_TalkerAliasHeader));
  ("FullLinkControl_TalkerAliasContinuation", (fun _ => p_FullLinkControl_TalkerAliasContinuation));
  ("FullLinkControl", p_FullLinkControl);
  ("Homebrew2015_TypeMasterPing", p_Homebrew2015_TypeMasterPing);
  ("Homebrew2015_TypeRepeaterPong", p_Homebrew2015_TypeRepeaterPong);
  ("Homebrew2015_TypeRepeaterLoginResponse", p_Homebrew2015_TypeRepeaterLoginResponse);
  ("Homebrew2015_TypeRepeaterLoginRequest", p_Homebrew2015_TypeRepeaterLoginRequest);
  ("Homebrew2015_TypeMasterNotAccept", p_Homebrew2015_TypeMasterNotAccept);
  ("Homebrew2015_TypeMasterRepeaterAck", p_Homebrew2015_TypeMasterRepeaterAck);
  ("Homebrew2015_TypeMasterClosing", p_Homebrew2015_TypeMasterClosing);
  ("Homebrew2015_TypeDmrData", p_Homebrew2015_TypeDmrData);
  ("Homebrew2015_TypeRepeaterOptions", p_Homebrew2015_TypeRepeaterOptions);
  ("Homebrew2015_TypeRepeaterClosing", p_Homebrew2015_TypeRepeaterClosing);
  ("Homebrew2015_TypeRepeaterConfiguration", p_Homebrew2015_TypeRepeaterConfiguration);
  ("Homebrew2015", p_Homebrew2015);
  ("Mmdvm2020_TypeMasterPong", p_Mmdvm2020_TypeMasterPong);
  ("Mmdvm2020_TypeRadioPosition", (fun _ => p_Mmdvm2020_TypeRadioPosition));
  ("Mmdvm2020_TypeTalkerAlias", p_Mmdvm2020_TypeTalkerAlias);
  ("Mmdvm2020_TypeRepeaterLoginResponse", p_Mmdvm2020_TypeRepeaterLoginResponse);
  ("Mmdvm2020_TypeRepeaterLoginRequest", p_Mmdvm2020_TypeRepeaterLoginRequest);
  ("Mmdvm2020_TypeMasterNotAccept", p_Mmdvm2020_TypeMasterNotAccept);
  ("Mmdvm2020_TypeUnknown", p_Mmdvm2020_TypeUnknown);
  ("Mmdvm2020_TypeMasterRepeaterAck", p_Mmdvm2020_TypeMasterRepeaterAck);
  ("Mmdvm2020_TypeMasterClosing", p_Mmdvm2020_TypeMasterClosing);
  ("Mmdvm2020_TypeDmrData", p_Mmdvm2020_TypeDmrData);
  ("Mmdvm2020_TypeRepeaterBeacon", (fun _ => p_Mmdvm2020_TypeRepeaterBeacon));
  ("Mmdvm2020_TypeRepeaterOptions", p_Mmdvm2020_TypeRepeaterOptions);
  ("Mmdvm2020_TypeRepeaterClosing", p_Mmdvm2020_TypeRepeaterClosing);
  ("Mmdvm2020_TypeRepeaterConfiguration", p_Mmdvm2020_TypeRepeaterConfiguration);
  ("Mmdvm2020_TypeRepeaterPing", p_Mmdvm2020_TypeRepeaterPing);
  ("Mmdvm2020", p_Mmdvm2020);
  ("RadioIp", p_RadioIp);
  ("RadioId", p_RadioId);
  ("Datetimestring", p_Datetimestring);
  ("Intervalstring", p_Intervalstring);
  ("Gpsdata", p_Gpsdata);
  ("RadioRegistrationService", p_RadioRegistrationService);
  ("DataDeliveryStates", p_DataDeliveryStates);
  ("DataTransmitProtocol_LastDataSlice", p_DataTransmitProtocol_LastDataSlice);
  ("DataTransmitProtocol_DataSliceAnswer", p_DataTransmitProtocol_DataSliceAnswer);
  ("DataTransmitProtocol_LastDataSliceAnswer", p_DataTransmitProtocol_LastDataSliceAnswer);
  ("DataTransmitProtocol_DtpAnswer", p_DataTransmitProtocol_DtpAnswer);
  ("DataTransmitProtocol", p_DataTransmitProtocol);
  ("TextMessageProtocol", p_TextMessageProtocol);
  ("LocationProtocol_TriggeredReportStopAnswer", p_LocationProtocol_TriggeredReportStopAnswer);
  ("LocationProtocol_ConditionReportRequest", p_LocationProtocol_ConditionReportRequest);
  ("LocationProtocol_QuickGpsPayload", p_LocationProtocol_QuickGpsPayload);
  ("LocationProtocol_ConditionQuickGpsRequest", p_LocationProtocol_ConditionQuickGpsRequest);
  ("LocationProtocol_ConditionReport", p_LocationProtocol_ConditionReport);
  ("LocationProtocol_EmergencyReport", p_LocationProtocol_EmergencyReport);
  ("LocationProtocol_TriggeredReportAnswer", p_LocationProtocol_TriggeredReportAnswer);
  ("LocationProtocol_StandardAnswerWithRssi", p_LocationProtocol_StandardAnswerWithRssi);
  ("LocationProtocol_StandardRequest", p_LocationProtocol_StandardRequest);
  ("LocationProtocol_TriggeredReportRequest", p_LocationProtocol_TriggeredReportRequest);
  ("LocationProtocol_StandardAnswer", p_LocationProtocol_StandardAnswer);
  ("LocationProtocol_ConditionReportAnswer", p_LocationProtocol_ConditionReportAnswer);
  ("LocationProtocol_EmergencyReportStopRequest", p_LocationProtocol_EmergencyReportStopRequest);
  ("LocationProtocol_ConditionQuickGpsAnswer", p_LocationProtocol_ConditionQuickGpsAnswer);
  ("LocationProtocol_TriggeredReport", p_LocationProtocol_TriggeredReport);
  ("LocationProtocol_ConditionReportWithRssi", p_LocationProtocol_ConditionReportWithRssi);
  ("LocationProtocol_EmergencyReportStopAnswer", p_LocationProtocol_EmergencyReportStopAnswer);
  ("LocationProtocol_TriggeredReportStopRequest", p_LocationProtocol_TriggeredReportStopRequest);
  ("LocationProtocol", p_LocationProtocol);
  ("TelemetryProtocol_StandardStatusReport", p_TelemetryProtocol_StandardStatusReport);
  ("TelemetryProtocol_VioExtendedStatus", p_TelemetryProtocol_VioExtendedStatus);
  ("TelemetryProtocol_RemoteControlAnswer", p_TelemetryProtocol_RemoteControlAnswer);
  ("TelemetryProtocol_RemoteControlRequest", p_TelemetryProtocol_RemoteControlRequest);
  ("TelemetryProtocol_ExtendedStatusReport", p_TelemetryProtocol_ExtendedStatusReport);
  ("TelemetryProtocol_StandardStatusRequest", p_TelemetryProtocol_StandardStatusRequest);
  ("TelemetryProtocol", p_TelemetryProtocol);
  ("RadioControlProtocol_BroadcastStatusConfigurationReply", p_RadioControlProtocol_BroadcastStatusConfigurationReply);
  ("RadioControlProtocol_BroadcastConfiguration", p_RadioControlProtocol_BroadcastConfiguration);
  ("RadioControlProtocol_BroadcastStatusConfigurationRequest", p_RadioControlProtocol_BroadcastStatusConfigurationRequest);
  ("RadioControlProtocol_CallRequest", p_RadioControlProtocol_CallRequest);
  ("RadioControlProtocol_RemoveRadioReply", p_RadioControlProtocol_RemoveRadioReply);
  ("RadioControlProtocol_RemoveRadioRequest", (fun _ => p_RadioControlProtocol_RemoveRadioRequest));
  ("RadioControlProtocol_CallReply", p_RadioControlProtocol_CallReply);
  ("RadioControlProtocol", p_RadioControlProtocol);
  ("HyteraDmrApplicationProtocol_UndefinedProtocol", p_HyteraDmrApplicationProtocol_UndefinedProtocol);
  ("HyteraDmrApplicationProtocol", p_HyteraDmrApplicationProtocol);
  ("HyteraRadioNetworkProtocol", p_HyteraRadioNetworkProtocol);
  ("HyteraSimpleTransportReliabilityProtocol_Option", p_HyteraSimpleTransportReliabilityProtocol_Option);
  ("HyteraSimpleTransportReliabilityProtocol", p_HyteraSimpleTransportReliabilityProtocol);
  ("IpSiteConnectProtocol", p_IpSiteConnectProtocol);
  ("IpSiteConnectHeartbeat_Keepalive", p_IpSiteConnectHeartbeat_Keepalive);
  ("IpSiteConnectHeartbeat_PingPong", p_IpSiteConnectHeartbeat_PingPong);
  ("IpSiteConnectHeartbeat_Unknown", p_IpSiteConnectHeartbeat_Unknown);
  ("IpSiteConnectHeartbeat", p_IpSiteConnectHeartbeat);
  ("RealTimeTransportProtocol_FixedHeader", p_RealTimeTransportProtocol_FixedHeader);
  ("RealTimeTransportProtocol_HeaderExtension", p_RealTimeTransportProtocol_HeaderExtension);
  ("RealTimeTransportProtocol", p_RealTimeTransportProtocol);
  ("AutomaticRegistrationService_DeviceRegistrationMessageHeader", (fun _ => p_AutomaticRegistrationService_DeviceRegistrationMessageHeader));
  ("AutomaticRegistrationService_MessageHeaderBits", (fun _ => p_AutomaticRegistrationService_MessageHeaderBits));
  ("AutomaticRegistrationService_DeviceDeregistrationMessage", (fun _ => p_AutomaticRegistrationService_DeviceDeregistrationMessage));
  ("AutomaticRegistrationService_DeviceRegistrationAcknowledgementFailureReason", (fun _ => p_AutomaticRegistrationService_DeviceRegistrationAcknowledgementFailureReason));
  ("AutomaticRegistrationService_DeviceRegistrationAcknowledgementHeader", (fun _ => p_AutomaticRegistrationService_DeviceRegistrationAcknowledgementHeader));
  ("AutomaticRegistrationService_ArsQueryMessage", (fun _ => p_AutomaticRegistrationService_ArsQueryMessage));
  ("AutomaticRegistrationService", p_AutomaticRegistrationService);
  ("MotTextMessageProtocol_TextMessageHeaderSequenceAndEncoding", (fun _ => p_MotTextMessageProtocol_TextMessageHeaderSequenceAndEncoding));
  ("MotTextMessageProtocol_TmsServiceAvailabilityHeader", (fun _ => p_MotTextMessageProtocol_TmsServiceAvailabilityHeader));
  ("MotTextMessageProtocol_MessageHeaderBits", (fun _ => p_MotTextMessageProtocol_MessageHeaderBits));
  ("MotTextMessageProtocol_TmsAcknowledgementHeaderSequenceNumber", (fun _ => p_MotTextMessageProtocol_TmsAcknowledgementHeaderSequenceNumber));
  ("MotTextMessageProtocol_TmsServiceAvailabilityAcknowledgement", (fun _ => p_MotTextMessageProtocol_TmsServiceAvailabilityAcknowledgement));
  ("MotTextMessageProtocol", p_MotTextMessageProtocol);
  ("MotorolaBinaryXml_OpaqueElementValue", p_MotorolaBinaryXml_OpaqueElementValue);
  ("MotorolaBinaryXml_Opaque1byteValue", p_MotorolaBinaryXml_Opaque1byteValue);
  ("MotorolaBinaryXml_Opaque2byteValue", p_MotorolaBinaryXml_Opaque2byteValue);
  ("MotorolaBinaryXml_Opaque3byteValue", p_MotorolaBinaryXml_Opaque3byteValue);
  ("MotorolaBinaryXml_Opaque4byteValue", p_MotorolaBinaryXml_Opaque4byteValue);
  ("MotorolaBinaryXml_Opaque5byteValue", p_MotorolaBinaryXml_Opaque5byteValue);
  ("MotorolaBinaryXml_Uintvar", p_MotorolaBinaryXml_Uintvar);
  ("MotorolaBinaryXml_Sintvar", p_MotorolaBinaryXml_Sintvar);
  ("MotorolaBinaryXml_ConstantDataTableReference", p_MotorolaBinaryXml_ConstantDataTableReference);
  ("MotorolaBinaryXml_LrrpElement", p_MotorolaBinaryXml_LrrpElement);
  ("MotorolaBinaryXml_LrrpImmediateRequestNcdt", p_MotorolaBinaryXml_LrrpImmediateRequestNcdt);
  ("MotorolaBinaryXml_Sfloatvar", p_MotorolaBinaryXml_Sfloatvar);
  ("MotorolaBinaryXml_Ufloatvar", p_MotorolaBinaryXml_Ufloatvar);
  ("MotorolaBinaryXml_MbxmlDocument", p_MotorolaBinaryXml_MbxmlDocument);
  ("MotorolaBinaryXml", p_MotorolaBinaryXml)].

(** Every parser returns an object. *)
Definition is_obj (v : pyval) : bool := match v with VObj _ _ => true | _ => false end.
Notation OV := (fun v => is_obj v = true).
Create HintDb isobj discriminated.
#[global] Hint Constants Opaque : isobj.
#[global] Hint Variables Opaque : isobj.
Ltac objs := repeat match goal with
  | |- yields (obj _ _) _ => unfold obj
  | |- yields (bind _ _) _ => apply yields_bind_any; intros ?
  | |- yields (if ?c then _ else _) _ => destruct c
  | |- yields (match ?c with _ => _ end) _ => destruct c
  | |- yields (fail _) _ => apply yields_fail
  | |- yields (ret _) _ => apply yields_ret; reflexivity
  | |- yields _ _ => solve [auto with isobj]
  end.
Lemma obj_p_DmrCsbk_NegativeAckResponseData  : yields (p_DmrCsbk_NegativeAckResponseData ) OV.
Proof. unfold p_DmrCsbk_NegativeAckResponseData. objs. Qed.
#[global] Hint Resolve obj_p_DmrCsbk_NegativeAckResponseData : isobj.
Lemma obj_p_DmrCsbk_ServiceOptions  : yields (p_DmrCsbk_ServiceOptions ) OV.
Proof. unfold p_DmrCsbk_ServiceOptions. objs. Qed.
#[global] Hint Resolve obj_p_DmrCsbk_ServiceOptions : isobj.
Lemma obj_p_DmrCsbk_UnitToUnitVoiceRequestData  : yields (p_DmrCsbk_UnitToUnitVoiceRequestData ) OV.
Proof. unfold p_DmrCsbk_UnitToUnitVoiceRequestData. objs. Qed.
#[global] Hint Resolve obj_p_DmrCsbk_UnitToUnitVoiceRequestData : isobj.
Lemma obj_p_DmrCsbk_PreambleData  : yields (p_DmrCsbk_PreambleData ) OV.
Proof. unfold p_DmrCsbk_PreambleData. objs. Qed.
#[global] Hint Resolve obj_p_DmrCsbk_PreambleData : isobj.
Lemma obj_p_DmrCsbk_ChannelTimingData  : yields (p_DmrCsbk_ChannelTimingData ) OV.
Proof. unfold p_DmrCsbk_ChannelTimingData. objs. Qed.
#[global] Hint Resolve obj_p_DmrCsbk_ChannelTimingData : isobj.
Lemma obj_p_DmrCsbk_BsOutboundActivationData  : yields (p_DmrCsbk_BsOutboundActivationData ) OV.
Proof. unfold p_DmrCsbk_BsOutboundActivationData. objs. Qed.
#[global] Hint Resolve obj_p_DmrCsbk_BsOutboundActivationData : isobj.
Lemma obj_p_DmrCsbk_UnitToUnitVoiceAnswerData  : yields (p_DmrCsbk_UnitToUnitVoiceAnswerData ) OV.
Proof. unfold p_DmrCsbk_UnitToUnitVoiceAnswerData. objs. Qed.
#[global] Hint Resolve obj_p_DmrCsbk_UnitToUnitVoiceAnswerData : isobj.
Lemma obj_p_DmrCsbk  : yields (p_DmrCsbk ) OV.
Proof. unfold p_DmrCsbk. objs. Qed.
#[global] Hint Resolve obj_p_DmrCsbk : isobj.
Lemma obj_p_DmrData_Rate1LastBlockUnconfirmed rt : yields (p_DmrData_Rate1LastBlockUnconfirmed rt) OV.
Proof. unfold p_DmrData_Rate1LastBlockUnconfirmed. objs. Qed.
#[global] Hint Resolve obj_p_DmrData_Rate1LastBlockUnconfirmed : isobj.
Lemma obj_p_DmrData_Rate12LastBlockConfirmed rt : yields (p_DmrData_Rate12LastBlockConfirmed rt) OV.
Proof. unfold p_DmrData_Rate12LastBlockConfirmed. objs. Qed.
#[global] Hint Resolve obj_p_DmrData_Rate12LastBlockConfirmed : isobj.
Lemma obj_p_DmrData_Rate12Confirmed rt : yields (p_DmrData_Rate12Confirmed rt) OV.
Proof. unfold p_DmrData_Rate12Confirmed. objs. Qed.
#[global] Hint Resolve obj_p_DmrData_Rate12Confirmed : isobj.
Lemma obj_p_DmrData_Rate34LastBlockUnconfirmed rt : yields (p_DmrData_Rate34LastBlockUnconfirmed rt) OV.
Proof. unfold p_DmrData_Rate34LastBlockUnconfirmed. objs. Qed.
#[global] Hint Resolve obj_p_DmrData_Rate34LastBlockUnconfirmed : isobj.
Lemma obj_p_DmrData_Rate1LastBlockConfirmed rt : yields (p_DmrData_Rate1LastBlockConfirmed rt) OV.
Proof. unfold p_DmrData_Rate1LastBlockConfirmed. objs. Qed.
#[global] Hint Resolve obj_p_DmrData_Rate1LastBlockConfirmed : isobj.
Lemma obj_p_DmrData_Rate1Unconfirmed rt : yields (p_DmrData_Rate1Unconfirmed rt) OV.
Proof. unfold p_DmrData_Rate1Unconfirmed. objs. Qed.
#[global] Hint Resolve obj_p_DmrData_Rate1Unconfirmed : isobj.
Lemma obj_p_DmrData_UdtLastBlock rt : yields (p_DmrData_UdtLastBlock rt) OV.
Proof. unfold p_DmrData_UdtLastBlock. objs. Qed.
#[global] Hint Resolve obj_p_DmrData_UdtLastBlock : isobj.
Lemma obj_p_DmrData_Rate34Confirmed rt : yields (p_DmrData_Rate34Confirmed rt) OV.
Proof. unfold p_DmrData_Rate34Confirmed. objs. Qed.
#[global] Hint Resolve obj_p_DmrData_Rate34Confirmed : isobj.
Lemma obj_p_DmrData_Rate34LastBlockConfirmed rt : yields (p_DmrData_Rate34LastBlockConfirmed rt) OV.
Proof. unfold p_DmrData_Rate34LastBlockConfirmed. objs. Qed.
#[global] Hint Resolve obj_p_DmrData_Rate34LastBlockConfirmed : isobj.
Lemma obj_p_DmrData_Rate34Unconfirmed rt : yields (p_DmrData_Rate34Unconfirmed rt) OV.
Proof. unfold p_DmrData_Rate34Unconfirmed. objs. Qed.
#[global] Hint Resolve obj_p_DmrData_Rate34Unconfirmed : isobj.
Lemma obj_p_DmrData_Rate12LastBlockUnconfirmed rt : yields (p_DmrData_Rate12LastBlockUnconfirmed rt) OV.
Proof. unfold p_DmrData_Rate12LastBlockUnconfirmed. objs. Qed.
#[global] Hint Resolve obj_p_DmrData_Rate12LastBlockUnconfirmed : isobj.
Lemma obj_p_DmrData_Rate1Confirmed rt : yields (p_DmrData_Rate1Confirmed rt) OV.
Proof. unfold p_DmrData_Rate1Confirmed. objs. Qed.
#[global] Hint Resolve obj_p_DmrData_Rate1Confirmed : isobj.
Lemma obj_p_DmrData_Rate12Unconfirmed rt : yields (p_DmrData_Rate12Unconfirmed rt) OV.
Proof. unfold p_DmrData_Rate12Unconfirmed. objs. Qed.
#[global] Hint Resolve obj_p_DmrData_Rate12Unconfirmed : isobj.
Lemma obj_p_DmrData  : yields (p_DmrData ) OV.
Proof. unfold p_DmrData. objs. Qed.
#[global] Hint Resolve obj_p_DmrData : isobj.
Lemma obj_p_DmrDataHeader_DataHeaderShortRaw rt : yields (p_DmrDataHeader_DataHeaderShortRaw rt) OV.
Proof. unfold p_DmrDataHeader_DataHeaderShortRaw. objs. Qed.
#[global] Hint Resolve obj_p_DmrDataHeader_DataHeaderShortRaw : isobj.
Lemma obj_p_DmrDataHeader_DataHeaderProprietary rt : yields (p_DmrDataHeader_DataHeaderProprietary rt) OV.
Proof. unfold p_DmrDataHeader_DataHeaderProprietary. objs. Qed.
#[global] Hint Resolve obj_p_DmrDataHeader_DataHeaderProprietary : isobj.
Lemma obj_p_DmrDataHeader_DataHeaderUndefined rt : yields (p_DmrDataHeader_DataHeaderUndefined rt) OV.
Proof. unfold p_DmrDataHeader_DataHeaderUndefined. objs. Qed.
#[global] Hint Resolve obj_p_DmrDataHeader_DataHeaderUndefined : isobj.
Lemma obj_p_DmrDataHeader_DataHeaderShortStatusPrecoded rt : yields (p_DmrDataHeader_DataHeaderShortStatusPrecoded rt) OV.
Proof. unfold p_DmrDataHeader_DataHeaderShortStatusPrecoded. objs. Qed.
#[global] Hint Resolve obj_p_DmrDataHeader_DataHeaderShortStatusPrecoded : isobj.
Lemma obj_p_DmrDataHeader_DataHeaderResponse rt : yields (p_DmrDataHeader_DataHeaderResponse rt) OV.
Proof. unfold p_DmrDataHeader_DataHeaderResponse. objs. Qed.
#[global] Hint Resolve obj_p_DmrDataHeader_DataHeaderResponse : isobj.
Lemma obj_p_DmrDataHeader_DataHeaderConfirmed rt : yields (p_DmrDataHeader_DataHeaderConfirmed rt) OV.
Proof. unfold p_DmrDataHeader_DataHeaderConfirmed. objs. Qed.
#[global] Hint Resolve obj_p_DmrDataHeader_DataHeaderConfirmed : isobj.
Lemma obj_p_DmrDataHeader_DataHeaderUnconfirmed rt : yields (p_DmrDataHeader_DataHeaderUnconfirmed rt) OV.
Proof. unfold p_DmrDataHeader_DataHeaderUnconfirmed. objs. Qed.
#[global] Hint Resolve obj_p_DmrDataHeader_DataHeaderUnconfirmed : isobj.
Lemma obj_p_DmrDataHeader_DataHeaderShortDefined rt : yields (p_DmrDataHeader_DataHeaderShortDefined rt) OV.
Proof. unfold p_DmrDataHeader_DataHeaderShortDefined. objs. Qed.
#[global] Hint Resolve obj_p_DmrDataHeader_DataHeaderShortDefined : isobj.
Lemma obj_p_DmrDataHeader_DataHeaderUdt rt : yields (p_DmrDataHeader_DataHeaderUdt rt) OV.
Proof. unfold p_DmrDataHeader_DataHeaderUdt. objs. Qed.
#[global] Hint Resolve obj_p_DmrDataHeader_DataHeaderUdt : isobj.
Lemma obj_p_DmrDataHeader  : yields (p_DmrDataHeader ) OV.
Proof. unfold p_DmrDataHeader. objs. Qed.
#[global] Hint Resolve obj_p_DmrDataHeader : isobj.
Lemma obj_p_DmrIpUdp_UdpIpv4CompressedHeader rt : yields (p_DmrIpUdp_UdpIpv4CompressedHeader rt) OV.
Proof. unfold p_DmrIpUdp_UdpIpv4CompressedHeader. objs. Qed.
#[global] Hint Resolve obj_p_DmrIpUdp_UdpIpv4CompressedHeader : isobj.
Lemma obj_p_DmrIpUdp  : yields (p_DmrIpUdp ) OV.
Proof. unfold p_DmrIpUdp. objs. Qed.
#[global] Hint Resolve obj_p_DmrIpUdp : isobj.
Lemma obj_p_FullLinkControl_GpsInfoLcPdu  : yields (p_FullLinkControl_GpsInfoLcPdu ) OV.
Proof. unfold p_FullLinkControl_GpsInfoLcPdu. objs. Qed.
#[global] Hint Resolve obj_p_FullLinkControl_GpsInfoLcPdu : isobj.
Lemma obj_p_FullLinkControl_GroupVoiceChannelUser  : yields (p_FullLinkControl_GroupVoiceChannelUser ) OV.
Proof. unfold p_FullLinkControl_GroupVoiceChannelUser. objs. Qed.
#[global] Hint Resolve obj_p_FullLinkControl_GroupVoiceChannelUser : isobj.
Lemma obj_p_FullLinkControl_UnitToUnitVoiceChannelUser  : yields (p_FullLinkControl_UnitToUnitVoiceChannelUser ) OV.
Proof. unfold p_FullLinkControl_UnitToUnitVoiceChannelUser. objs. Qed.
#[global] Hint Resolve obj_p_FullLinkControl_UnitToUnitVoiceChannelUser : isobj.
Lemma obj_p_FullLinkControl_TalkerAliasHeader  : yields (p_FullLinkControl_TalkerAliasHeader ) OV.
Proof. unfold p_FullLinkControl_TalkerAliasHeader. objs. Qed.
#[global] Hint Resolve obj_p_FullLinkControl_TalkerAliasHeader : isobj.
Lemma obj_p_FullLinkControl_TalkerAliasContinuation  : yields (p_FullLinkControl_TalkerAliasContinuation ) OV.
Proof. unfold p_FullLinkControl_TalkerAliasContinuation. objs. Qed.
#[global] Hint Resolve obj_p_FullLinkControl_TalkerAliasContinuation : isobj.
Lemma obj_p_FullLinkControl rt : yields (p_FullLinkControl rt) OV.
Proof. unfold p_FullLinkControl. objs. Qed.
#[global] Hint Resolve obj_p_FullLinkControl : isobj.
Lemma obj_p_Homebrew2015_TypeMasterPing rt : yields (p_Homebrew2015_TypeMasterPing rt) OV.
Proof. unfold p_Homebrew2015_TypeMasterPing. objs. Qed.
#[global] Hint Resolve obj_p_Homebrew2015_TypeMasterPing : isobj.
Lemma obj_p_Homebrew2015_TypeRepeaterPong rt : yields (p_Homebrew2015_TypeRepeaterPong rt) OV.
Proof. unfold p_Homebrew2015_TypeRepeaterPong. objs. Qed.
#[global] Hint Resolve obj_p_Homebrew2015_TypeRepeaterPong : isobj.
Lemma obj_p_Homebrew2015_TypeRepeaterLoginResponse rt : yields (p_Homebrew2015_TypeRepeaterLoginResponse rt) OV.
Proof. unfold p_Homebrew2015_TypeRepeaterLoginResponse. objs. Qed.
#[global] Hint Resolve obj_p_Homebrew2015_TypeRepeaterLoginResponse : isobj.
Lemma obj_p_Homebrew2015_TypeRepeaterLoginRequest rt : yields (p_Homebrew2015_TypeRepeaterLoginRequest rt) OV.
Proof. unfold p_Homebrew2015_TypeRepeaterLoginRequest. objs. Qed.
#[global] Hint Resolve obj_p_Homebrew2015_TypeRepeaterLoginRequest : isobj.
Lemma obj_p_Homebrew2015_TypeMasterNotAccept rt : yields (p_Homebrew2015_TypeMasterNotAccept rt) OV.
Proof. unfold p_Homebrew2015_TypeMasterNotAccept. objs. Qed.
#[global] Hint Resolve obj_p_Homebrew2015_TypeMasterNotAccept : isobj.
Lemma obj_p_Homebrew2015_TypeMasterRepeaterAck rt : yields (p_Homebrew2015_TypeMasterRepeaterAck rt) OV.
Proof. unfold p_Homebrew2015_TypeMasterRepeaterAck. objs. Qed.
#[global] Hint Resolve obj_p_Homebrew2015_TypeMasterRepeaterAck : isobj.
Lemma obj_p_Homebrew2015_TypeMasterClosing rt : yields (p_Homebrew2015_TypeMasterClosing rt) OV.
Proof. unfold p_Homebrew2015_TypeMasterClosing. objs. Qed.
#[global] Hint Resolve obj_p_Homebrew2015_TypeMasterClosing : isobj.
Lemma obj_p_Homebrew2015_TypeDmrData rt : yields (p_Homebrew2015_TypeDmrData rt) OV.
Proof. unfold p_Homebrew2015_TypeDmrData. objs. Qed.
#[global] Hint Resolve obj_p_Homebrew2015_TypeDmrData : isobj.
Lemma obj_p_Homebrew2015_TypeRepeaterOptions rt : yields (p_Homebrew2015_TypeRepeaterOptions rt) OV.
Proof. unfold p_Homebrew2015_TypeRepeaterOptions. objs. Qed.
#[global] Hint Resolve obj_p_Homebrew2015_TypeRepeaterOptions : isobj.
Lemma obj_p_Homebrew2015_TypeRepeaterClosing rt : yields (p_Homebrew2015_TypeRepeaterClosing rt) OV.
Proof. unfold p_Homebrew2015_TypeRepeaterClosing. objs. Qed.
#[global] Hint Resolve obj_p_Homebrew2015_TypeRepeaterClosing : isobj.
Lemma obj_p_Homebrew2015_TypeRepeaterConfiguration rt : yields (p_Homebrew2015_TypeRepeaterConfiguration rt) OV.
Proof. unfold p_Homebrew2015_TypeRepeaterConfiguration. objs. Qed.
#[global] Hint Resolve obj_p_Homebrew2015_TypeRepeaterConfiguration : isobj.
Lemma obj_p_Homebrew2015_TypeRepeaterConfigurationOrClosing rt x1 : yields (p_Homebrew2015_TypeRepeaterConfigurationOrClosing rt x1) OV.
Proof. unfold p_Homebrew2015_TypeRepeaterConfigurationOrClosing. objs. Qed.
#[global] Hint Resolve obj_p_Homebrew2015_TypeRepeaterConfigurationOrClosing : isobj.
Lemma obj_p_Homebrew2015 rt : yields (p_Homebrew2015 rt) OV.
Proof. unfold p_Homebrew2015. objs. Qed.
#[global] Hint Resolve obj_p_Homebrew2015 : isobj.
Lemma obj_p_Mmdvm2020_TypeMasterPong rt : yields (p_Mmdvm2020_TypeMasterPong rt) OV.
Proof. unfold p_Mmdvm2020_TypeMasterPong. objs. Qed.
#[global] Hint Resolve obj_p_Mmdvm2020_TypeMasterPong : isobj.
Lemma obj_p_Mmdvm2020_TypeRadioPosition  : yields (p_Mmdvm2020_TypeRadioPosition ) OV.
Proof. unfold p_Mmdvm2020_TypeRadioPosition. objs. Qed.
#[global] Hint Resolve obj_p_Mmdvm2020_TypeRadioPosition : isobj.
Lemma obj_p_Mmdvm2020_TypeTalkerAlias rt : yields (p_Mmdvm2020_TypeTalkerAlias rt) OV.
Proof. unfold p_Mmdvm2020_TypeTalkerAlias. objs. Qed.
#[global] Hint Resolve obj_p_Mmdvm2020_TypeTalkerAlias : isobj.
Lemma obj_p_Mmdvm2020_TypeRepeaterLoginResponse rt : yields (p_Mmdvm2020_TypeRepeaterLoginResponse rt) OV.
Proof. unfold p_Mmdvm2020_TypeRepeaterLoginResponse. objs. Qed.
#[global] Hint Resolve obj_p_Mmdvm2020_TypeRepeaterLoginResponse : isobj.
Lemma obj_p_Mmdvm2020_TypeRepeaterLoginRequest rt : yields (p_Mmdvm2020_TypeRepeaterLoginRequest rt) OV.
Proof. unfold p_Mmdvm2020_TypeRepeaterLoginRequest. objs. Qed.
#[global] Hint Resolve obj_p_Mmdvm2020_TypeRepeaterLoginRequest : isobj.
Lemma obj_p_Mmdvm2020_TypeMasterNotAccept rt : yields (p_Mmdvm2020_TypeMasterNotAccept rt) OV.
Proof. unfold p_Mmdvm2020_TypeMasterNotAccept. objs. Qed.
#[global] Hint Resolve obj_p_Mmdvm2020_TypeMasterNotAccept : isobj.
Lemma obj_p_Mmdvm2020_TypeUnknown rt : yields (p_Mmdvm2020_TypeUnknown rt) OV.
Proof. unfold p_Mmdvm2020_TypeUnknown. objs. Qed.
#[global] Hint Resolve obj_p_Mmdvm2020_TypeUnknown : isobj.
Lemma obj_p_Mmdvm2020_TypeMasterRepeaterAck rt : yields (p_Mmdvm2020_TypeMasterRepeaterAck rt) OV.
Proof. unfold p_Mmdvm2020_TypeMasterRepeaterAck. objs. Qed.
#[global] Hint Resolve obj_p_Mmdvm2020_TypeMasterRepeaterAck : isobj.
Lemma obj_p_Mmdvm2020_TypeMasterClosing rt : yields (p_Mmdvm2020_TypeMasterClosing rt) OV.
Proof. unfold p_Mmdvm2020_TypeMasterClosing. objs. Qed.
#[global] Hint Resolve obj_p_Mmdvm2020_TypeMasterClosing : isobj.
Lemma obj_p_Mmdvm2020_TypeDmrData rt : yields (p_Mmdvm2020_TypeDmrData rt) OV.
Proof. unfold p_Mmdvm2020_TypeDmrData. objs. Qed.
#[global] Hint Resolve obj_p_Mmdvm2020_TypeDmrData : isobj.
Lemma obj_p_Mmdvm2020_TypeRepeaterBeacon  : yields (p_Mmdvm2020_TypeRepeaterBeacon ) OV.
Proof. unfold p_Mmdvm2020_TypeRepeaterBeacon. objs. Qed.
#[global] Hint Resolve obj_p_Mmdvm2020_TypeRepeaterBeacon : isobj.
Lemma obj_p_Mmdvm2020_TypeRepeaterOptions rt : yields (p_Mmdvm2020_TypeRepeaterOptions rt) OV.
Proof. unfold p_Mmdvm2020_TypeRepeaterOptions. objs. Qed.
#[global] Hint Resolve obj_p_Mmdvm2020_TypeRepeaterOptions : isobj.
Lemma obj_p_Mmdvm2020_TypeRepeaterClosing rt : yields (p_Mmdvm2020_TypeRepeaterClosing rt) OV.
Proof. unfold p_Mmdvm2020_TypeRepeaterClosing. objs. Qed.
#[global] Hint Resolve obj_p_Mmdvm2020_TypeRepeaterClosing : isobj.
Lemma obj_p_Mmdvm2020_TypeRepeaterConfiguration rt : yields (p_Mmdvm2020_TypeRepeaterConfiguration rt) OV.
Proof. unfold p_Mmdvm2020_TypeRepeaterConfiguration. objs. Qed.
#[global] Hint Resolve obj_p_Mmdvm2020_TypeRepeaterConfiguration : isobj.
Lemma obj_p_Mmdvm2020_TypeRepeaterPing rt : yields (p_Mmdvm2020_TypeRepeaterPing rt) OV.
Proof. unfold p_Mmdvm2020_TypeRepeaterPing. objs. Qed.
#[global] Hint Resolve obj_p_Mmdvm2020_TypeRepeaterPing : isobj.
Lemma obj_p_Mmdvm2020_TypeRepeaterConfigurationOrClosing rt x1 : yields (p_Mmdvm2020_TypeRepeaterConfigurationOrClosing rt x1) OV.
Proof. unfold p_Mmdvm2020_TypeRepeaterConfigurationOrClosing. objs. Qed.
#[global] Hint Resolve obj_p_Mmdvm2020_TypeRepeaterConfigurationOrClosing : isobj.
Lemma obj_p_Mmdvm2020 rt : yields (p_Mmdvm2020 rt) OV.
Proof. unfold p_Mmdvm2020. objs. Qed.
#[global] Hint Resolve obj_p_Mmdvm2020 : isobj.
Lemma obj_p_RadioIp rt : yields (p_RadioIp rt) OV.
Proof. unfold p_RadioIp. objs. Qed.
#[global] Hint Resolve obj_p_RadioIp : isobj.
Lemma obj_p_RadioId rt : yields (p_RadioId rt) OV.
Proof. unfold p_RadioId. objs. Qed.
#[global] Hint Resolve obj_p_RadioId : isobj.
Lemma obj_p_Datetimestring rt : yields (p_Datetimestring rt) OV.
Proof. unfold p_Datetimestring. objs. Qed.
#[global] Hint Resolve obj_p_Datetimestring : isobj.
Lemma obj_p_Intervalstring rt : yields (p_Intervalstring rt) OV.
Proof. unfold p_Intervalstring. objs. Qed.
#[global] Hint Resolve obj_p_Intervalstring : isobj.
Lemma obj_p_Gpsdata rt : yields (p_Gpsdata rt) OV.
Proof. unfold p_Gpsdata. objs. Qed.
#[global] Hint Resolve obj_p_Gpsdata : isobj.
Lemma obj_p_RadioRegistrationService rt : yields (p_RadioRegistrationService rt) OV.
Proof. unfold p_RadioRegistrationService. objs. Qed.
#[global] Hint Resolve obj_p_RadioRegistrationService : isobj.
Lemma obj_p_DataDeliveryStates rt : yields (p_DataDeliveryStates rt) OV.
Proof. unfold p_DataDeliveryStates. objs. Qed.
#[global] Hint Resolve obj_p_DataDeliveryStates : isobj.
Lemma obj_p_DataTransmitProtocol_LastDataSlice rt : yields (p_DataTransmitProtocol_LastDataSlice rt) OV.
Proof. unfold p_DataTransmitProtocol_LastDataSlice. objs. Qed.
#[global] Hint Resolve obj_p_DataTransmitProtocol_LastDataSlice : isobj.
Lemma obj_p_DataTransmitProtocol_DtpRequest rt x1 : yields (p_DataTransmitProtocol_DtpRequest rt x1) OV.
Proof. unfold p_DataTransmitProtocol_DtpRequest. objs. Qed.
#[global] Hint Resolve obj_p_DataTransmitProtocol_DtpRequest : isobj.
Lemma obj_p_DataTransmitProtocol_DataSliceAnswer rt : yields (p_DataTransmitProtocol_DataSliceAnswer rt) OV.
Proof. unfold p_DataTransmitProtocol_DataSliceAnswer. objs. Qed.
#[global] Hint Resolve obj_p_DataTransmitProtocol_DataSliceAnswer : isobj.
Lemma obj_p_DataTransmitProtocol_DataSliceTransmit rt x1 : yields (p_DataTransmitProtocol_DataSliceTransmit rt x1) OV.
Proof. unfold p_DataTransmitProtocol_DataSliceTransmit. objs. Qed.
#[global] Hint Resolve obj_p_DataTransmitProtocol_DataSliceTransmit : isobj.
Lemma obj_p_DataTransmitProtocol_LastDataSliceAnswer rt : yields (p_DataTransmitProtocol_LastDataSliceAnswer rt) OV.
Proof. unfold p_DataTransmitProtocol_LastDataSliceAnswer. objs. Qed.
#[global] Hint Resolve obj_p_DataTransmitProtocol_LastDataSliceAnswer : isobj.
Lemma obj_p_DataTransmitProtocol_DtpAnswer rt : yields (p_DataTransmitProtocol_DtpAnswer rt) OV.
Proof. unfold p_DataTransmitProtocol_DtpAnswer. objs. Qed.
#[global] Hint Resolve obj_p_DataTransmitProtocol_DtpAnswer : isobj.
Lemma obj_p_DataTransmitProtocol rt : yields (p_DataTransmitProtocol rt) OV.
Proof. unfold p_DataTransmitProtocol. objs. Qed.
#[global] Hint Resolve obj_p_DataTransmitProtocol : isobj.
Lemma obj_p_TextMessageProtocol rt : yields (p_TextMessageProtocol rt) OV.
Proof. unfold p_TextMessageProtocol. objs. Qed.
#[global] Hint Resolve obj_p_TextMessageProtocol : isobj.
Lemma obj_p_LocationProtocol_TriggeredReportStopAnswer rt : yields (p_LocationProtocol_TriggeredReportStopAnswer rt) OV.
Proof. unfold p_LocationProtocol_TriggeredReportStopAnswer. objs. Qed.
#[global] Hint Resolve obj_p_LocationProtocol_TriggeredReportStopAnswer : isobj.
Lemma obj_p_LocationProtocol_ConditionReportRequest rt : yields (p_LocationProtocol_ConditionReportRequest rt) OV.
Proof. unfold p_LocationProtocol_ConditionReportRequest. objs. Qed.
#[global] Hint Resolve obj_p_LocationProtocol_ConditionReportRequest : isobj.
Lemma obj_p_LocationProtocol_QuickGpsPayload rt : yields (p_LocationProtocol_QuickGpsPayload rt) OV.
Proof. unfold p_LocationProtocol_QuickGpsPayload. objs. Qed.
#[global] Hint Resolve obj_p_LocationProtocol_QuickGpsPayload : isobj.
Lemma obj_p_LocationProtocol_ConditionQuickGpsRequest rt : yields (p_LocationProtocol_ConditionQuickGpsRequest rt) OV.
Proof. unfold p_LocationProtocol_ConditionQuickGpsRequest. objs. Qed.
#[global] Hint Resolve obj_p_LocationProtocol_ConditionQuickGpsRequest : isobj.
Lemma obj_p_LocationProtocol_ConditionReport rt : yields (p_LocationProtocol_ConditionReport rt) OV.
Proof. unfold p_LocationProtocol_ConditionReport. objs. Qed.
#[global] Hint Resolve obj_p_LocationProtocol_ConditionReport : isobj.
Lemma obj_p_LocationProtocol_EmergencyReport rt : yields (p_LocationProtocol_EmergencyReport rt) OV.
Proof. unfold p_LocationProtocol_EmergencyReport. objs. Qed.
#[global] Hint Resolve obj_p_LocationProtocol_EmergencyReport : isobj.
Lemma obj_p_LocationProtocol_TriggeredReportAnswer rt : yields (p_LocationProtocol_TriggeredReportAnswer rt) OV.
Proof. unfold p_LocationProtocol_TriggeredReportAnswer. objs. Qed.
#[global] Hint Resolve obj_p_LocationProtocol_TriggeredReportAnswer : isobj.
Lemma obj_p_LocationProtocol_StandardAnswerWithRssi rt : yields (p_LocationProtocol_StandardAnswerWithRssi rt) OV.
Proof. unfold p_LocationProtocol_StandardAnswerWithRssi. objs. Qed.
#[global] Hint Resolve obj_p_LocationProtocol_StandardAnswerWithRssi : isobj.
Lemma obj_p_LocationProtocol_StandardRequest rt : yields (p_LocationProtocol_StandardRequest rt) OV.
Proof. unfold p_LocationProtocol_StandardRequest. objs. Qed.
#[global] Hint Resolve obj_p_LocationProtocol_StandardRequest : isobj.
Lemma obj_p_LocationProtocol_TriggeredReportRequest rt : yields (p_LocationProtocol_TriggeredReportRequest rt) OV.
Proof. unfold p_LocationProtocol_TriggeredReportRequest. objs. Qed.
#[global] Hint Resolve obj_p_LocationProtocol_TriggeredReportRequest : isobj.
Lemma obj_p_LocationProtocol_StandardAnswer rt : yields (p_LocationProtocol_StandardAnswer rt) OV.
Proof. unfold p_LocationProtocol_StandardAnswer. objs. Qed.
#[global] Hint Resolve obj_p_LocationProtocol_StandardAnswer : isobj.
Lemma obj_p_LocationProtocol_ConditionReportAnswer rt : yields (p_LocationProtocol_ConditionReportAnswer rt) OV.
Proof. unfold p_LocationProtocol_ConditionReportAnswer. objs. Qed.
#[global] Hint Resolve obj_p_LocationProtocol_ConditionReportAnswer : isobj.
Lemma obj_p_LocationProtocol_EmergencyReportStopRequest rt : yields (p_LocationProtocol_EmergencyReportStopRequest rt) OV.
Proof. unfold p_LocationProtocol_EmergencyReportStopRequest. objs. Qed.
#[global] Hint Resolve obj_p_LocationProtocol_EmergencyReportStopRequest : isobj.
Lemma obj_p_LocationProtocol_ConditionQuickGpsAnswer rt : yields (p_LocationProtocol_ConditionQuickGpsAnswer rt) OV.
Proof. unfold p_LocationProtocol_ConditionQuickGpsAnswer. objs. Qed.
#[global] Hint Resolve obj_p_LocationProtocol_ConditionQuickGpsAnswer : isobj.
Lemma obj_p_LocationProtocol_TriggeredReport rt : yields (p_LocationProtocol_TriggeredReport rt) OV.
Proof. unfold p_LocationProtocol_TriggeredReport. objs. Qed.
#[global] Hint Resolve obj_p_LocationProtocol_TriggeredReport : isobj.
Lemma obj_p_LocationProtocol_ConditionReportWithRssi rt : yields (p_LocationProtocol_ConditionReportWithRssi rt) OV.
Proof. unfold p_LocationProtocol_ConditionReportWithRssi. objs. Qed.
#[global] Hint Resolve obj_p_LocationProtocol_ConditionReportWithRssi : isobj.
Lemma obj_p_LocationProtocol_EmergencyReportStopAnswer rt : yields (p_LocationProtocol_EmergencyReportStopAnswer rt) OV.
Proof. unfold p_LocationProtocol_EmergencyReportStopAnswer. objs. Qed.
#[global] Hint Resolve obj_p_LocationProtocol_EmergencyReportStopAnswer : isobj.
Lemma obj_p_LocationProtocol_TriggeredReportStopRequest rt : yields (p_LocationProtocol_TriggeredReportStopRequest rt) OV.
Proof. unfold p_LocationProtocol_TriggeredReportStopRequest. objs. Qed.
#[global] Hint Resolve obj_p_LocationProtocol_TriggeredReportStopRequest : isobj.
Lemma obj_p_LocationProtocol rt : yields (p_LocationProtocol rt) OV.
Proof. unfold p_LocationProtocol. objs. Qed.
#[global] Hint Resolve obj_p_LocationProtocol : isobj.
Lemma obj_p_TelemetryProtocol_StandardStatusReport rt : yields (p_TelemetryProtocol_StandardStatusReport rt) OV.
Proof. unfold p_TelemetryProtocol_StandardStatusReport. objs. Qed.
#[global] Hint Resolve obj_p_TelemetryProtocol_StandardStatusReport : isobj.
Lemma obj_p_TelemetryProtocol_VioExtendedStatus rt : yields (p_TelemetryProtocol_VioExtendedStatus rt) OV.
Proof. unfold p_TelemetryProtocol_VioExtendedStatus. objs. Qed.
#[global] Hint Resolve obj_p_TelemetryProtocol_VioExtendedStatus : isobj.
Lemma obj_p_TelemetryProtocol_RemoteControlAnswer rt : yields (p_TelemetryProtocol_RemoteControlAnswer rt) OV.
Proof. unfold p_TelemetryProtocol_RemoteControlAnswer. objs. Qed.
#[global] Hint Resolve obj_p_TelemetryProtocol_RemoteControlAnswer : isobj.
Lemma obj_p_TelemetryProtocol_RemoteControlRequest rt : yields (p_TelemetryProtocol_RemoteControlRequest rt) OV.
Proof. unfold p_TelemetryProtocol_RemoteControlRequest. objs. Qed.
#[global] Hint Resolve obj_p_TelemetryProtocol_RemoteControlRequest : isobj.
Lemma obj_p_TelemetryProtocol_ExtendedStatusReport rt : yields (p_TelemetryProtocol_ExtendedStatusReport rt) OV.
Proof. unfold p_TelemetryProtocol_ExtendedStatusReport. objs. Qed.
#[global] Hint Resolve obj_p_TelemetryProtocol_ExtendedStatusReport : isobj.
Lemma obj_p_TelemetryProtocol_StandardStatusRequest rt : yields (p_TelemetryProtocol_StandardStatusRequest rt) OV.
Proof. unfold p_TelemetryProtocol_StandardStatusRequest. objs. Qed.
#[global] Hint Resolve obj_p_TelemetryProtocol_StandardStatusRequest : isobj.
Lemma obj_p_TelemetryProtocol rt : yields (p_TelemetryProtocol rt) OV.
Proof. unfold p_TelemetryProtocol. objs. Qed.
#[global] Hint Resolve obj_p_TelemetryProtocol : isobj.
Lemma obj_p_RadioControlProtocol_BroadcastStatusConfigurationReply rt : yields (p_RadioControlProtocol_BroadcastStatusConfigurationReply rt) OV.
Proof. unfold p_RadioControlProtocol_BroadcastStatusConfigurationReply. objs. Qed.
#[global] Hint Resolve obj_p_RadioControlProtocol_BroadcastStatusConfigurationReply : isobj.
Lemma obj_p_RadioControlProtocol_BroadcastConfiguration rt : yields (p_RadioControlProtocol_BroadcastConfiguration rt) OV.
Proof. unfold p_RadioControlProtocol_BroadcastConfiguration. objs. Qed.
#[global] Hint Resolve obj_p_RadioControlProtocol_BroadcastConfiguration : isobj.
Lemma obj_p_RadioControlProtocol_BroadcastStatusConfigurationRequest rt : yields (p_RadioControlProtocol_BroadcastStatusConfigurationRequest rt) OV.
Proof. unfold p_RadioControlProtocol_BroadcastStatusConfigurationRequest. objs. Qed.
#[global] Hint Resolve obj_p_RadioControlProtocol_BroadcastStatusConfigurationRequest : isobj.
Lemma obj_p_RadioControlProtocol_RadioIdentificationReply rt x1 : yields (p_RadioControlProtocol_RadioIdentificationReply rt x1) OV.
Proof. unfold p_RadioControlProtocol_RadioIdentificationReply. objs. Qed.
#[global] Hint Resolve obj_p_RadioControlProtocol_RadioIdentificationReply : isobj.
Lemma obj_p_RadioControlProtocol_GenericData rt x1 : yields (p_RadioControlProtocol_GenericData rt x1) OV.
Proof. unfold p_RadioControlProtocol_GenericData. objs. Qed.
#[global] Hint Resolve obj_p_RadioControlProtocol_GenericData : isobj.
Lemma obj_p_RadioControlProtocol_CallRequest rt : yields (p_RadioControlProtocol_CallRequest rt) OV.
Proof. unfold p_RadioControlProtocol_CallRequest. objs. Qed.
#[global] Hint Resolve obj_p_RadioControlProtocol_CallRequest : isobj.
Lemma obj_p_RadioControlProtocol_RemoveRadioReply rt : yields (p_RadioControlProtocol_RemoveRadioReply rt) OV.
Proof. unfold p_RadioControlProtocol_RemoveRadioReply. objs. Qed.
#[global] Hint Resolve obj_p_RadioControlProtocol_RemoveRadioReply : isobj.
Lemma obj_p_RadioControlProtocol_RemoveRadioRequest  : yields (p_RadioControlProtocol_RemoveRadioRequest ) OV.
Proof. unfold p_RadioControlProtocol_RemoveRadioRequest. objs. Qed.
#[global] Hint Resolve obj_p_RadioControlProtocol_RemoveRadioRequest : isobj.
Lemma obj_p_RadioControlProtocol_CallReply rt : yields (p_RadioControlProtocol_CallReply rt) OV.
Proof. unfold p_RadioControlProtocol_CallReply. objs. Qed.
#[global] Hint Resolve obj_p_RadioControlProtocol_CallReply : isobj.
Lemma obj_p_RadioControlProtocol rt : yields (p_RadioControlProtocol rt) OV.
Proof. unfold p_RadioControlProtocol. objs. Qed.
#[global] Hint Resolve obj_p_RadioControlProtocol : isobj.
Lemma obj_p_HyteraDmrApplicationProtocol_UndefinedProtocol rt : yields (p_HyteraDmrApplicationProtocol_UndefinedProtocol rt) OV.
Proof. unfold p_HyteraDmrApplicationProtocol_UndefinedProtocol. objs. Qed.
#[global] Hint Resolve obj_p_HyteraDmrApplicationProtocol_UndefinedProtocol : isobj.
Lemma obj_p_HyteraDmrApplicationProtocol rt : yields (p_HyteraDmrApplicationProtocol rt) OV.
Proof. unfold p_HyteraDmrApplicationProtocol. objs. Qed.
#[global] Hint Resolve obj_p_HyteraDmrApplicationProtocol : isobj.
Lemma obj_p_HyteraRadioNetworkProtocol rt : yields (p_HyteraRadioNetworkProtocol rt) OV.
Proof. unfold p_HyteraRadioNetworkProtocol. objs. Qed.
#[global] Hint Resolve obj_p_HyteraRadioNetworkProtocol : isobj.
Lemma obj_p_HyteraSimpleTransportReliabilityProtocol_Option rt : yields (p_HyteraSimpleTransportReliabilityProtocol_Option rt) OV.
Proof. unfold p_HyteraSimpleTransportReliabilityProtocol_Option. objs. Qed.
#[global] Hint Resolve obj_p_HyteraSimpleTransportReliabilityProtocol_Option : isobj.
Lemma obj_p_HyteraSimpleTransportReliabilityProtocol rt : yields (p_HyteraSimpleTransportReliabilityProtocol rt) OV.
Proof. unfold p_HyteraSimpleTransportReliabilityProtocol. objs. Qed.
#[global] Hint Resolve obj_p_HyteraSimpleTransportReliabilityProtocol : isobj.
Lemma obj_p_IpSiteConnectProtocol rt : yields (p_IpSiteConnectProtocol rt) OV.
Proof. unfold p_IpSiteConnectProtocol. objs. Qed.
#[global] Hint Resolve obj_p_IpSiteConnectProtocol : isobj.
Lemma obj_p_IpSiteConnectHeartbeat_Keepalive rt : yields (p_IpSiteConnectHeartbeat_Keepalive rt) OV.
Proof. unfold p_IpSiteConnectHeartbeat_Keepalive. objs. Qed.
#[global] Hint Resolve obj_p_IpSiteConnectHeartbeat_Keepalive : isobj.
Lemma obj_p_IpSiteConnectHeartbeat_PingPong rt : yields (p_IpSiteConnectHeartbeat_PingPong rt) OV.
Proof. unfold p_IpSiteConnectHeartbeat_PingPong. objs. Qed.
#[global] Hint Resolve obj_p_IpSiteConnectHeartbeat_PingPong : isobj.
Lemma obj_p_IpSiteConnectHeartbeat_Unknown rt : yields (p_IpSiteConnectHeartbeat_Unknown rt) OV.
Proof. unfold p_IpSiteConnectHeartbeat_Unknown. objs. Qed.
#[global] Hint Resolve obj_p_IpSiteConnectHeartbeat_Unknown : isobj.
Lemma obj_p_IpSiteConnectHeartbeat rt : yields (p_IpSiteConnectHeartbeat rt) OV.
Proof. unfold p_IpSiteConnectHeartbeat. objs. Qed.
#[global] Hint Resolve obj_p_IpSiteConnectHeartbeat : isobj.
Lemma obj_p_RealTimeTransportProtocol_FixedHeader rt : yields (p_RealTimeTransportProtocol_FixedHeader rt) OV.
Proof. unfold p_RealTimeTransportProtocol_FixedHeader. objs. Qed.
#[global] Hint Resolve obj_p_RealTimeTransportProtocol_FixedHeader : isobj.
Lemma obj_p_RealTimeTransportProtocol_HeaderExtension rt : yields (p_RealTimeTransportProtocol_HeaderExtension rt) OV.
Proof. unfold p_RealTimeTransportProtocol_HeaderExtension. objs. Qed.
#[global] Hint Resolve obj_p_RealTimeTransportProtocol_HeaderExtension : isobj.
Lemma obj_p_RealTimeTransportProtocol rt : yields (p_RealTimeTransportProtocol rt) OV.
Proof. unfold p_RealTimeTransportProtocol. objs. Qed.
#[global] Hint Resolve obj_p_RealTimeTransportProtocol : isobj.
Lemma obj_p_AutomaticRegistrationService_DeviceRegistrationMessageHeader  : yields (p_AutomaticRegistrationService_DeviceRegistrationMessageHeader ) OV.
Proof. unfold p_AutomaticRegistrationService_DeviceRegistrationMessageHeader. objs. Qed.
#[global] Hint Resolve obj_p_AutomaticRegistrationService_DeviceRegistrationMessageHeader : isobj.
Lemma obj_p_AutomaticRegistrationService_MessageHeaderBits  : yields (p_AutomaticRegistrationService_MessageHeaderBits ) OV.
Proof. unfold p_AutomaticRegistrationService_MessageHeaderBits. objs. Qed.
#[global] Hint Resolve obj_p_AutomaticRegistrationService_MessageHeaderBits : isobj.
Lemma obj_p_AutomaticRegistrationService_DeviceDeregistrationMessage  : yields (p_AutomaticRegistrationService_DeviceDeregistrationMessage ) OV.
Proof. unfold p_AutomaticRegistrationService_DeviceDeregistrationMessage. objs. Qed.
#[global] Hint Resolve obj_p_AutomaticRegistrationService_DeviceDeregistrationMessage : isobj.
Lemma obj_p_AutomaticRegistrationService_DeviceRegistrationAcknowledgementFailureReason  : yields (p_AutomaticRegistrationService_DeviceRegistrationAcknowledgementFailureReason ) OV.
Proof. unfold p_AutomaticRegistrationService_DeviceRegistrationAcknowledgementFailureReason. objs. Qed.
#[global] Hint Resolve obj_p_AutomaticRegistrationService_DeviceRegistrationAcknowledgementFailureReason : isobj.
Lemma obj_p_AutomaticRegistrationService_DeviceRegistrationAcknowledgementHeader  : yields (p_AutomaticRegistrationService_DeviceRegistrationAcknowledgementHeader ) OV.
Proof. unfold p_AutomaticRegistrationService_DeviceRegistrationAcknowledgementHeader. objs. Qed.
#[global] Hint Resolve obj_p_AutomaticRegistrationService_DeviceRegistrationAcknowledgementHeader : isobj.
Lemma obj_p_AutomaticRegistrationService_AcknowledgementMessage x0 : yields (p_AutomaticRegistrationService_AcknowledgementMessage x0) OV.
Proof. unfold p_AutomaticRegistrationService_AcknowledgementMessage. objs. Qed.
#[global] Hint Resolve obj_p_AutomaticRegistrationService_AcknowledgementMessage : isobj.
Lemma obj_p_AutomaticRegistrationService_DeviceRegistrationMessage rt x1 : yields (p_AutomaticRegistrationService_DeviceRegistrationMessage rt x1) OV.
Proof. unfold p_AutomaticRegistrationService_DeviceRegistrationMessage. objs. Qed.
#[global] Hint Resolve obj_p_AutomaticRegistrationService_DeviceRegistrationMessage : isobj.
Lemma obj_p_AutomaticRegistrationService_ArsQueryMessage  : yields (p_AutomaticRegistrationService_ArsQueryMessage ) OV.
Proof. unfold p_AutomaticRegistrationService_ArsQueryMessage. objs. Qed.
#[global] Hint Resolve obj_p_AutomaticRegistrationService_ArsQueryMessage : isobj.
Lemma obj_p_AutomaticRegistrationService rt : yields (p_AutomaticRegistrationService rt) OV.
Proof. unfold p_AutomaticRegistrationService. objs. Qed.
#[global] Hint Resolve obj_p_AutomaticRegistrationService : isobj.
Lemma obj_p_MotTextMessageProtocol_TextMessageHeaderSequenceAndEncoding  : yields (p_MotTextMessageProtocol_TextMessageHeaderSequenceAndEncoding ) OV.
Proof. unfold p_MotTextMessageProtocol_TextMessageHeaderSequenceAndEncoding. objs. Qed.
#[global] Hint Resolve obj_p_MotTextMessageProtocol_TextMessageHeaderSequenceAndEncoding : isobj.
Lemma obj_p_MotTextMessageProtocol_TextMessage rt x1 : yields (p_MotTextMessageProtocol_TextMessage rt x1) OV.
Proof. unfold p_MotTextMessageProtocol_TextMessage. objs. Qed.
#[global] Hint Resolve obj_p_MotTextMessageProtocol_TextMessage : isobj.
Lemma obj_p_MotTextMessageProtocol_TmsServiceAvailabilityHeader  : yields (p_MotTextMessageProtocol_TmsServiceAvailabilityHeader ) OV.
Proof. unfold p_MotTextMessageProtocol_TmsServiceAvailabilityHeader. objs. Qed.
#[global] Hint Resolve obj_p_MotTextMessageProtocol_TmsServiceAvailabilityHeader : isobj.
Lemma obj_p_MotTextMessageProtocol_TmsServiceAvailability x0 : yields (p_MotTextMessageProtocol_TmsServiceAvailability x0) OV.
Proof. unfold p_MotTextMessageProtocol_TmsServiceAvailability. objs. Qed.
#[global] Hint Resolve obj_p_MotTextMessageProtocol_TmsServiceAvailability : isobj.
Lemma obj_p_MotTextMessageProtocol_MessageHeaderBits  : yields (p_MotTextMessageProtocol_MessageHeaderBits ) OV.
Proof. unfold p_MotTextMessageProtocol_MessageHeaderBits. objs. Qed.
#[global] Hint Resolve obj_p_MotTextMessageProtocol_MessageHeaderBits : isobj.
Lemma obj_p_MotTextMessageProtocol_TmsAcknowledgementHeaderSequenceNumber  : yields (p_MotTextMessageProtocol_TmsAcknowledgementHeaderSequenceNumber ) OV.
Proof. unfold p_MotTextMessageProtocol_TmsAcknowledgementHeaderSequenceNumber. objs. Qed.
#[global] Hint Resolve obj_p_MotTextMessageProtocol_TmsAcknowledgementHeaderSequenceNumber : isobj.
Lemma obj_p_MotTextMessageProtocol_TmsAcknowledgement x0 : yields (p_MotTextMessageProtocol_TmsAcknowledgement x0) OV.
Proof. unfold p_MotTextMessageProtocol_TmsAcknowledgement. objs. Qed.
#[global] Hint Resolve obj_p_MotTextMessageProtocol_TmsAcknowledgement : isobj.
Lemma obj_p_MotTextMessageProtocol_TmsServiceAvailabilityAcknowledgement  : yields (p_MotTextMessageProtocol_TmsServiceAvailabilityAcknowledgement ) OV.
Proof. unfold p_MotTextMessageProtocol_TmsServiceAvailabilityAcknowledgement. objs. Qed.
#[global] Hint Resolve obj_p_MotTextMessageProtocol_TmsServiceAvailabilityAcknowledgement : isobj.
Lemma obj_p_MotTextMessageProtocol rt : yields (p_MotTextMessageProtocol rt) OV.
Proof. unfold p_MotTextMessageProtocol. objs. Qed.
#[global] Hint Resolve obj_p_MotTextMessageProtocol : isobj.
Lemma obj_p_MotorolaBinaryXml_OpaqueElementValue rt : yields (p_MotorolaBinaryXml_OpaqueElementValue rt) OV.
Proof. unfold p_MotorolaBinaryXml_OpaqueElementValue. objs. Qed.
#[global] Hint Resolve obj_p_MotorolaBinaryXml_OpaqueElementValue : isobj.
Lemma obj_p_MotorolaBinaryXml_Opaque1byteValue rt : yields (p_MotorolaBinaryXml_Opaque1byteValue rt) OV.
Proof. unfold p_MotorolaBinaryXml_Opaque1byteValue. objs. Qed.
#[global] Hint Resolve obj_p_MotorolaBinaryXml_Opaque1byteValue : isobj.
Lemma obj_p_MotorolaBinaryXml_Opaque2byteValue rt : yields (p_MotorolaBinaryXml_Opaque2byteValue rt) OV.
Proof. unfold p_MotorolaBinaryXml_Opaque2byteValue. objs. Qed.
#[global] Hint Resolve obj_p_MotorolaBinaryXml_Opaque2byteValue : isobj.
Lemma obj_p_MotorolaBinaryXml_Opaque3byteValue rt : yields (p_MotorolaBinaryXml_Opaque3byteValue rt) OV.
Proof. unfold p_MotorolaBinaryXml_Opaque3byteValue. objs. Qed.
#[global] Hint Resolve obj_p_MotorolaBinaryXml_Opaque3byteValue : isobj.
Lemma obj_p_MotorolaBinaryXml_Opaque4byteValue rt : yields (p_MotorolaBinaryXml_Opaque4byteValue rt) OV.
Proof. unfold p_MotorolaBinaryXml_Opaque4byteValue. objs. Qed.
#[global] Hint Resolve obj_p_MotorolaBinaryXml_Opaque4byteValue : isobj.
Lemma obj_p_MotorolaBinaryXml_Opaque5byteValue rt : yields (p_MotorolaBinaryXml_Opaque5byteValue rt) OV.
Proof. unfold p_MotorolaBinaryXml_Opaque5byteValue. objs. Qed.
#[global] Hint Resolve obj_p_MotorolaBinaryXml_Opaque5byteValue : isobj.
Lemma obj_p_MotorolaBinaryXml_Uintvar rt : yields (p_MotorolaBinaryXml_Uintvar rt) OV.
Proof. unfold p_MotorolaBinaryXml_Uintvar. objs. Qed.
#[global] Hint Resolve obj_p_MotorolaBinaryXml_Uintvar : isobj.
Lemma obj_p_MotorolaBinaryXml_Sintvar rt : yields (p_MotorolaBinaryXml_Sintvar rt) OV.
Proof. unfold p_MotorolaBinaryXml_Sintvar. objs. Qed.
#[global] Hint Resolve obj_p_MotorolaBinaryXml_Sintvar : isobj.
Lemma obj_p_MotorolaBinaryXml_ConstantDataTableReference rt : yields (p_MotorolaBinaryXml_ConstantDataTableReference rt) OV.
Proof. unfold p_MotorolaBinaryXml_ConstantDataTableReference. objs. Qed.
#[global] Hint Resolve obj_p_MotorolaBinaryXml_ConstantDataTableReference : isobj.
Lemma obj_p_MotorolaBinaryXml_LrrpElement rt : yields (p_MotorolaBinaryXml_LrrpElement rt) OV.
Proof. unfold p_MotorolaBinaryXml_LrrpElement. objs. Qed.
#[global] Hint Resolve obj_p_MotorolaBinaryXml_LrrpElement : isobj.
Lemma obj_p_MotorolaBinaryXml_LrrpImmediateRequestNcdt rt : yields (p_MotorolaBinaryXml_LrrpImmediateRequestNcdt rt) OV.
Proof. unfold p_MotorolaBinaryXml_LrrpImmediateRequestNcdt. objs. Qed.
#[global] Hint Resolve obj_p_MotorolaBinaryXml_LrrpImmediateRequestNcdt : isobj.
Lemma obj_p_MotorolaBinaryXml_Sfloatvar rt : yields (p_MotorolaBinaryXml_Sfloatvar rt) OV.
Proof. unfold p_MotorolaBinaryXml_Sfloatvar. objs. Qed.
#[global] Hint Resolve obj_p_MotorolaBinaryXml_Sfloatvar : isobj.
Lemma obj_p_MotorolaBinaryXml_Ufloatvar rt : yields (p_MotorolaBinaryXml_Ufloatvar rt) OV.
Proof. unfold p_MotorolaBinaryXml_Ufloatvar. objs. Qed.
#[global] Hint Resolve obj_p_MotorolaBinaryXml_Ufloatvar : isobj.
Lemma obj_p_MotorolaBinaryXml_MbxmlDocument rt : yields (p_MotorolaBinaryXml_MbxmlDocument rt) OV.
Proof. unfold p_MotorolaBinaryXml_MbxmlDocument. objs. Qed.
#[global] Hint Resolve obj_p_MotorolaBinaryXml_MbxmlDocument : isobj.
Lemma obj_p_MotorolaBinaryXml rt : yields (p_MotorolaBinaryXml rt) OV.
Proof. unfold p_MotorolaBinaryXml. objs. Qed.
#[global] Hint Resolve obj_p_MotorolaBinaryXml : isobj.

Lemma from_bytes_yields {A} (m : M A) (Q : A -> Prop) b v : yields m Q -> from_bytes m b = Ok v -> Q v.
Proof. intros H E. unfold from_bytes in E. destruct (m (stream_of b)) as [r s] eqn:Em. cbn [fst] in E. subst r. exact (H _ _ _ Em). Qed.

(** Every result of every parser is an object whose attribute names are proper at every depth. *)
Lemma all_parsers_clean : Forall (fun np => forall rt b v, from_bytes (snd np rt) b = Ok v -> is_obj v = true /\ clean v = true) all_parsers.
Proof.
  unfold all_parsers. repeat (apply Forall_cons; [intros rt b v H; cbn [snd] in H; cbv beta in H; split; [refine (from_bytes_yields _ OV b v _ H); auto with isobj|refine (from_bytes_yields _ CV b v _ H); auto with clean]|]). apply Forall_nil.
Qed.
