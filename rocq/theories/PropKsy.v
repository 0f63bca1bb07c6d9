(** * C54: the Python parsers implement the format definitions they were generated from.

    [Ksy.v] gives the meaning of a format definition (.ksy): which attributes it reads, in which order, with
    which conditions, repetitions, switches, sub-streams, enums and instances.  [KsyDefs.v] transcribes the
    definitions in /repo (every type, enum and instance, cited by file and line).  Neither mentions the
    generated Python classes; the parsers of EtsiModel.v ... MotorolaModel.v model those.  The theorems below
    say that the two coincide. *)
From Verif Require Import PyBase Runtime Codec Enums Getters EtsiModel HomebrewModel HyteraModel MotorolaModel LazyModel AllParsers PropGeneral2 Ksy KsyDefs KsyTac KsyProofs1 KsyProofs2 KsyProofs3 KsyProofs4 KsyInst.
Open Scope string_scope.
Open Scope list_scope.
Open Scope Z_scope.

(** The definition each class was generated from. *)
Definition definitions : list (string * typ) := [
  ("DmrCsbk_NegativeAckResponseData", T_DmrCsbk_NegativeAckResponseData);
  ("DmrCsbk_ServiceOptions", T_DmrCsbk_ServiceOptions);
  ("DmrCsbk_UnitToUnitVoiceRequestData", T_DmrCsbk_UnitToUnitVoiceRequestData);
  ("DmrCsbk_PreambleData", T_DmrCsbk_PreambleData);
  ("DmrCsbk_ChannelTimingData", T_DmrCsbk_ChannelTimingData);
  ("DmrCsbk_BsOutboundActivationData", T_DmrCsbk_BsOutboundActivationData);
  ("DmrCsbk_UnitToUnitVoiceAnswerData", T_DmrCsbk_UnitToUnitVoiceAnswerData);
  ("DmrCsbk", T_DmrCsbk);
  ("DmrData_Rate1LastBlockUnconfirmed", T_DmrData_Rate1LastBlockUnconfirmed);
  ("DmrData_Rate12LastBlockConfirmed", T_DmrData_Rate12LastBlockConfirmed);
  ("DmrData_Rate12Confirmed", T_DmrData_Rate12Confirmed);
  ("DmrData_Rate34LastBlockUnconfirmed", T_DmrData_Rate34LastBlockUnconfirmed);
  ("DmrData_Rate1LastBlockConfirmed", T_DmrData_Rate1LastBlockConfirmed);
  ("DmrData_Rate1Unconfirmed", T_DmrData_Rate1Unconfirmed);
  ("DmrData_UdtLastBlock", T_DmrData_UdtLastBlock);
  ("DmrData_Rate34Confirmed", T_DmrData_Rate34Confirmed);
  ("DmrData_Rate34LastBlockConfirmed", T_DmrData_Rate34LastBlockConfirmed);
  ("DmrData_Rate34Unconfirmed", T_DmrData_Rate34Unconfirmed);
  ("DmrData_Rate12LastBlockUnconfirmed", T_DmrData_Rate12LastBlockUnconfirmed);
  ("DmrData_Rate1Confirmed", T_DmrData_Rate1Confirmed);
  ("DmrData_Rate12Unconfirmed", T_DmrData_Rate12Unconfirmed);
  ("DmrData", T_DmrData);
  ("DmrDataHeader_DataHeaderShortRaw", T_DmrDataHeader_DataHeaderShortRaw);
  ("DmrDataHeader_DataHeaderProprietary", T_DmrDataHeader_DataHeaderProprietary);
  ("DmrDataHeader_DataHeaderUndefined", T_DmrDataHeader_DataHeaderUndefined);
  ("DmrDataHeader_DataHeaderShortStatusPrecoded", T_DmrDataHeader_DataHeaderShortStatusPrecoded);
  ("DmrDataHeader_DataHeaderResponse", T_DmrDataHeader_DataHeaderResponse);
  ("DmrDataHeader_DataHeaderConfirmed", T_DmrDataHeader_DataHeaderConfirmed);
  ("DmrDataHeader_DataHeaderUnconfirmed", T_DmrDataHeader_DataHeaderUnconfirmed);
  ("DmrDataHeader_DataHeaderShortDefined", T_DmrDataHeader_DataHeaderShortDefined);
  ("DmrDataHeader_DataHeaderUdt", T_DmrDataHeader_DataHeaderUdt);
  ("DmrDataHeader", T_DmrDataHeader);
  ("DmrIpUdp_UdpIpv4CompressedHeader", T_DmrIpUdp_UdpIpv4CompressedHeader);
  ("DmrIpUdp", T_DmrIpUdp);
  ("FullLinkControl_GpsInfoLcPdu", T_FullLinkControl_GpsInfoLcPdu);
  ("FullLinkControl_GroupVoiceChannelUser", T_FullLinkControl_GroupVoiceChannelUser);
  ("FullLinkControl_UnitToUnitVoiceChannelUser", T_FullLinkControl_UnitToUnitVoiceChannelUser);
  ("FullLinkControl_TalkerAliasHeader", T_FullLinkControl_TalkerAliasHeader);
  ("FullLinkControl_TalkerAliasContinuation", T_FullLinkControl_TalkerAliasContinuation);
  ("FullLinkControl", T_FullLinkControl);
  ("Homebrew2015_TypeMasterPing", T_Homebrew2015_TypeMasterPing);
  ("Homebrew2015_TypeRepeaterPong", T_Homebrew2015_TypeRepeaterPong);
  ("Homebrew2015_TypeRepeaterLoginResponse", T_Homebrew2015_TypeRepeaterLoginResponse);
  ("Homebrew2015_TypeRepeaterLoginRequest", T_Homebrew2015_TypeRepeaterLoginRequest);
  ("Homebrew2015_TypeMasterNotAccept", T_Homebrew2015_TypeMasterNotAccept);
  ("Homebrew2015_TypeMasterRepeaterAck", T_Homebrew2015_TypeMasterRepeaterAck);
  ("Homebrew2015_TypeMasterClosing", T_Homebrew2015_TypeMasterClosing);
  ("Homebrew2015_TypeDmrData", T_Homebrew2015_TypeDmrData);
  ("Homebrew2015_TypeRepeaterOptions", T_Homebrew2015_TypeRepeaterOptions);
  ("Homebrew2015_TypeRepeaterClosing", T_Homebrew2015_TypeRepeaterClosing);
  ("Homebrew2015_TypeRepeaterConfiguration", T_Homebrew2015_TypeRepeaterConfiguration);
  ("Homebrew2015", T_Homebrew2015);
  ("Mmdvm2020_TypeMasterPong", T_Mmdvm2020_TypeMasterPong);
  ("Mmdvm2020_TypeRadioPosition", T_Mmdvm2020_TypeRadioPosition);
  ("Mmdvm2020_TypeTalkerAlias", T_Mmdvm2020_TypeTalkerAlias);
  ("Mmdvm2020_TypeRepeaterLoginResponse", T_Mmdvm2020_TypeRepeaterLoginResponse);
  ("Mmdvm2020_TypeRepeaterLoginRequest", T_Mmdvm2020_TypeRepeaterLoginRequest);
  ("Mmdvm2020_TypeMasterNotAccept", T_Mmdvm2020_TypeMasterNotAccept);
  ("Mmdvm2020_TypeUnknown", T_Mmdvm2020_TypeUnknown);
  ("Mmdvm2020_TypeMasterRepeaterAck", T_Mmdvm2020_TypeMasterRepeaterAck);
  ("Mmdvm2020_TypeMasterClosing", T_Mmdvm2020_TypeMasterClosing);
  ("Mmdvm2020_TypeDmrData", T_Mmdvm2020_TypeDmrData);
  ("Mmdvm2020_TypeRepeaterBeacon", T_Mmdvm2020_TypeRepeaterBeacon);
  ("Mmdvm2020_TypeRepeaterOptions", T_Mmdvm2020_TypeRepeaterOptions);
  ("Mmdvm2020_TypeRepeaterClosing", T_Mmdvm2020_TypeRepeaterClosing);
  ("Mmdvm2020_TypeRepeaterConfiguration", T_Mmdvm2020_TypeRepeaterConfiguration);
  ("Mmdvm2020_TypeRepeaterPing", T_Mmdvm2020_TypeRepeaterPing);
  ("Mmdvm2020", T_Mmdvm2020);
  ("RadioIp", T_RadioIp);
  ("RadioId", T_RadioId);
  ("Datetimestring", T_Datetimestring);
  ("Intervalstring", T_Intervalstring);
  ("Gpsdata", T_Gpsdata);
  ("RadioRegistrationService", T_RadioRegistrationService);
  ("DataDeliveryStates", T_DataDeliveryStates);
  ("DataTransmitProtocol_LastDataSlice", T_DataTransmitProtocol_LastDataSlice);
  ("DataTransmitProtocol_DataSliceAnswer", T_DataTransmitProtocol_DataSliceAnswer);
  ("DataTransmitProtocol_LastDataSliceAnswer", T_DataTransmitProtocol_LastDataSliceAnswer);
  ("DataTransmitProtocol_DtpAnswer", T_DataTransmitProtocol_DtpAnswer);
  ("DataTransmitProtocol", T_DataTransmitProtocol);
  ("TextMessageProtocol", T_TextMessageProtocol);
  ("LocationProtocol_TriggeredReportStopAnswer", T_LocationProtocol_TriggeredReportStopAnswer);
  ("LocationProtocol_ConditionReportRequest", T_LocationProtocol_ConditionReportRequest);
  ("LocationProtocol_QuickGpsPayload", T_LocationProtocol_QuickGpsPayload);
  ("LocationProtocol_ConditionQuickGpsRequest", T_LocationProtocol_ConditionQuickGpsRequest);
  ("LocationProtocol_ConditionReport", T_LocationProtocol_ConditionReport);
  ("LocationProtocol_EmergencyReport", T_LocationProtocol_EmergencyReport);
  ("LocationProtocol_TriggeredReportAnswer", T_LocationProtocol_TriggeredReportAnswer);
  ("LocationProtocol_StandardAnswerWithRssi", T_LocationProtocol_StandardAnswerWithRssi);
  ("LocationProtocol_StandardRequest", T_LocationProtocol_StandardRequest);
  ("LocationProtocol_TriggeredReportRequest", T_LocationProtocol_TriggeredReportRequest);
  ("LocationProtocol_StandardAnswer", T_LocationProtocol_StandardAnswer);
  ("LocationProtocol_ConditionReportAnswer", T_LocationProtocol_ConditionReportAnswer);
  ("LocationProtocol_EmergencyReportStopRequest", T_LocationProtocol_EmergencyReportStopRequest);
  ("LocationProtocol_ConditionQuickGpsAnswer", T_LocationProtocol_ConditionQuickGpsAnswer);
  ("LocationProtocol_TriggeredReport", T_LocationProtocol_TriggeredReport);
  ("LocationProtocol_ConditionReportWithRssi", T_LocationProtocol_ConditionReportWithRssi);
  ("LocationProtocol_EmergencyReportStopAnswer", T_LocationProtocol_EmergencyReportStopAnswer);
  ("LocationProtocol_TriggeredReportStopRequest", T_LocationProtocol_TriggeredReportStopRequest);
  ("LocationProtocol", T_LocationProtocol);
  ("TelemetryProtocol_StandardStatusReport", T_TelemetryProtocol_StandardStatusReport);
  ("TelemetryProtocol_VioExtendedStatus", T_TelemetryProtocol_VioExtendedStatus);
  ("TelemetryProtocol_RemoteControlAnswer", T_TelemetryProtocol_RemoteControlAnswer);
  ("TelemetryProtocol_RemoteControlRequest", T_TelemetryProtocol_RemoteControlRequest);
  ("TelemetryProtocol_ExtendedStatusReport", T_TelemetryProtocol_ExtendedStatusReport);
  ("TelemetryProtocol_StandardStatusRequest", T_TelemetryProtocol_StandardStatusRequest);
  ("TelemetryProtocol", T_TelemetryProtocol);
  ("RadioControlProtocol_BroadcastStatusConfigurationReply", T_RadioControlProtocol_BroadcastStatusConfigurationReply);
  ("RadioControlProtocol_BroadcastConfiguration", T_RadioControlProtocol_BroadcastConfiguration);
  ("RadioControlProtocol_BroadcastStatusConfigurationRequest", T_RadioControlProtocol_BroadcastStatusConfigurationRequest);
  ("RadioControlProtocol_CallRequest", T_RadioControlProtocol_CallRequest);
  ("RadioControlProtocol_RemoveRadioReply", T_RadioControlProtocol_RemoveRadioReply);
  ("RadioControlProtocol_RemoveRadioRequest", T_RadioControlProtocol_RemoveRadioRequest);
  ("RadioControlProtocol_CallReply", T_RadioControlProtocol_CallReply);
  ("RadioControlProtocol", T_RadioControlProtocol);
  ("HyteraDmrApplicationProtocol_UndefinedProtocol", T_HyteraDmrApplicationProtocol_UndefinedProtocol);
  ("HyteraDmrApplicationProtocol", T_HyteraDmrApplicationProtocol);
  ("HyteraRadioNetworkProtocol", T_HyteraRadioNetworkProtocol);
  ("HyteraSimpleTransportReliabilityProtocol_Option", T_HyteraSimpleTransportReliabilityProtocol_Option);
  ("HyteraSimpleTransportReliabilityProtocol", T_HyteraSimpleTransportReliabilityProtocol);
  ("IpSiteConnectProtocol", T_IpSiteConnectProtocol);
  ("IpSiteConnectHeartbeat_Keepalive", T_IpSiteConnectHeartbeat_Keepalive);
  ("IpSiteConnectHeartbeat_PingPong", T_IpSiteConnectHeartbeat_PingPong);
  ("IpSiteConnectHeartbeat_Unknown", T_IpSiteConnectHeartbeat_Unknown);
  ("IpSiteConnectHeartbeat", T_IpSiteConnectHeartbeat);
  ("RealTimeTransportProtocol_FixedHeader", T_RealTimeTransportProtocol_FixedHeader);
  ("RealTimeTransportProtocol_HeaderExtension", T_RealTimeTransportProtocol_HeaderExtension);
  ("RealTimeTransportProtocol", T_RealTimeTransportProtocol);
  ("AutomaticRegistrationService_DeviceRegistrationMessageHeader", T_AutomaticRegistrationService_DeviceRegistrationMessageHeader);
  ("AutomaticRegistrationService_MessageHeaderBits", T_AutomaticRegistrationService_MessageHeaderBits);
  ("AutomaticRegistrationService_DeviceDeregistrationMessage", T_AutomaticRegistrationService_DeviceDeregistrationMessage);
  ("AutomaticRegistrationService_DeviceRegistrationAcknowledgementFailureReason", T_AutomaticRegistrationService_DeviceRegistrationAcknowledgementFailureReason);
  ("AutomaticRegistrationService_DeviceRegistrationAcknowledgementHeader", T_AutomaticRegistrationService_DeviceRegistrationAcknowledgementHeader);
  ("AutomaticRegistrationService_ArsQueryMessage", T_AutomaticRegistrationService_ArsQueryMessage);
  ("AutomaticRegistrationService", T_AutomaticRegistrationService);
  ("MotTextMessageProtocol_TextMessageHeaderSequenceAndEncoding", T_MotTextMessageProtocol_TextMessageHeaderSequenceAndEncoding);
  ("MotTextMessageProtocol_TmsServiceAvailabilityHeader", T_MotTextMessageProtocol_TmsServiceAvailabilityHeader);
  ("MotTextMessageProtocol_MessageHeaderBits", T_MotTextMessageProtocol_MessageHeaderBits);
  ("MotTextMessageProtocol_TmsAcknowledgementHeaderSequenceNumber", T_MotTextMessageProtocol_TmsAcknowledgementHeaderSequenceNumber);
  ("MotTextMessageProtocol_TmsServiceAvailabilityAcknowledgement", T_MotTextMessageProtocol_TmsServiceAvailabilityAcknowledgement);
  ("MotTextMessageProtocol", T_MotTextMessageProtocol);
  ("MotorolaBinaryXml_OpaqueElementValue", T_MotorolaBinaryXml_OpaqueElementValue);
  ("MotorolaBinaryXml_Opaque1byteValue", T_MotorolaBinaryXml_Opaque1byteValue);
  ("MotorolaBinaryXml_Opaque2byteValue", T_MotorolaBinaryXml_Opaque2byteValue);
  ("MotorolaBinaryXml_Opaque3byteValue", T_MotorolaBinaryXml_Opaque3byteValue);
  ("MotorolaBinaryXml_Opaque4byteValue", T_MotorolaBinaryXml_Opaque4byteValue);
  ("MotorolaBinaryXml_Opaque5byteValue", T_MotorolaBinaryXml_Opaque5byteValue);
  ("MotorolaBinaryXml_Uintvar", T_MotorolaBinaryXml_Uintvar);
  ("MotorolaBinaryXml_Sintvar", T_MotorolaBinaryXml_Sintvar);
  ("MotorolaBinaryXml_ConstantDataTableReference", T_MotorolaBinaryXml_ConstantDataTableReference);
  ("MotorolaBinaryXml_LrrpElement", T_MotorolaBinaryXml_LrrpElement);
  ("MotorolaBinaryXml_LrrpImmediateRequestNcdt", T_MotorolaBinaryXml_LrrpImmediateRequestNcdt);
  ("MotorolaBinaryXml_Sfloatvar", T_MotorolaBinaryXml_Sfloatvar);
  ("MotorolaBinaryXml_Ufloatvar", T_MotorolaBinaryXml_Ufloatvar);
  ("MotorolaBinaryXml_MbxmlDocument", T_MotorolaBinaryXml_MbxmlDocument);
  ("MotorolaBinaryXml", T_MotorolaBinaryXml)].

(** Every class that can be read on its own has a definition ... *)
Theorem C54_every_parser_has_its_definition : map fst definitions = map fst all_parsers.
Proof. reflexivity. Qed.

(** ... and reading with the class is reading by the definition: same object or same error, and the stream
    is left in the same state, whatever stream it is started on. *)
Definition implements (d : string * typ) (p : string * (runtime -> M pyval)) : Prop :=
  fst d = fst p /\ forall rt s, ksy_read rt (snd d) s = snd p rt s.

Lemma by_reads n T p : (forall rt, reads rt T (p rt)) -> implements (n, T) (n, p).
Proof. intros H. split; [reflexivity|]. intros rt s. cbn [snd]. unfold ksy_read, bind. rewrite (H rt [] s). unfold bind, ret. destruct (p rt s) as [[v|e] s']; reflexivity. Qed.
Lemma by_reads0 n T p : (forall rt, reads0 rt T (p rt)) -> implements (n, T) (n, p).
Proof. intros H. split; [reflexivity|]. intros rt s. cbn [snd]. unfold ksy_read, bind. rewrite (H rt s). unfold bind, ret. destruct (p rt s) as [[v|e] s']; reflexivity. Qed.

Lemma all_implement : Forall2 implements definitions all_parsers.
Proof.
  unfold definitions, all_parsers.
  apply Forall2_cons; [apply by_reads; exact k_DmrCsbk_NegativeAckResponseData|].
  apply Forall2_cons; [apply by_reads; exact k_DmrCsbk_ServiceOptions|].
  apply Forall2_cons; [apply by_reads; exact k_DmrCsbk_UnitToUnitVoiceRequestData|].
  apply Forall2_cons; [apply by_reads; exact k_DmrCsbk_PreambleData|].
  apply Forall2_cons; [apply by_reads; exact k_DmrCsbk_ChannelTimingData|].
  apply Forall2_cons; [apply by_reads; exact k_DmrCsbk_BsOutboundActivationData|].
  apply Forall2_cons; [apply by_reads; exact k_DmrCsbk_UnitToUnitVoiceAnswerData|].
  apply Forall2_cons; [apply by_reads; exact k_DmrCsbk|].
  apply Forall2_cons; [apply by_reads; exact k_DmrData_Rate1LastBlockUnconfirmed|].
  apply Forall2_cons; [apply by_reads; exact k_DmrData_Rate12LastBlockConfirmed|].
  apply Forall2_cons; [apply by_reads; exact k_DmrData_Rate12Confirmed|].
  apply Forall2_cons; [apply by_reads; exact k_DmrData_Rate34LastBlockUnconfirmed|].
  apply Forall2_cons; [apply by_reads; exact k_DmrData_Rate1LastBlockConfirmed|].
  apply Forall2_cons; [apply by_reads; exact k_DmrData_Rate1Unconfirmed|].
  apply Forall2_cons; [apply by_reads; exact k_DmrData_UdtLastBlock|].
  apply Forall2_cons; [apply by_reads; exact k_DmrData_Rate34Confirmed|].
  apply Forall2_cons; [apply by_reads; exact k_DmrData_Rate34LastBlockConfirmed|].
  apply Forall2_cons; [apply by_reads; exact k_DmrData_Rate34Unconfirmed|].
  apply Forall2_cons; [apply by_reads; exact k_DmrData_Rate12LastBlockUnconfirmed|].
  apply Forall2_cons; [apply by_reads; exact k_DmrData_Rate1Confirmed|].
  apply Forall2_cons; [apply by_reads; exact k_DmrData_Rate12Unconfirmed|].
  apply Forall2_cons; [apply by_reads; exact k_DmrData|].
  apply Forall2_cons; [apply by_reads; exact k_DmrDataHeader_DataHeaderShortRaw|].
  apply Forall2_cons; [apply by_reads; exact k_DmrDataHeader_DataHeaderProprietary|].
  apply Forall2_cons; [apply by_reads; exact k_DmrDataHeader_DataHeaderUndefined|].
  apply Forall2_cons; [apply by_reads; exact k_DmrDataHeader_DataHeaderShortStatusPrecoded|].
  apply Forall2_cons; [apply by_reads; exact k_DmrDataHeader_DataHeaderResponse|].
  apply Forall2_cons; [apply by_reads; exact k_DmrDataHeader_DataHeaderConfirmed|].
  apply Forall2_cons; [apply by_reads; exact k_DmrDataHeader_DataHeaderUnconfirmed|].
  apply Forall2_cons; [apply by_reads; exact k_DmrDataHeader_DataHeaderShortDefined|].
  apply Forall2_cons; [apply by_reads; exact k_DmrDataHeader_DataHeaderUdt|].
  apply Forall2_cons; [apply by_reads; exact k_DmrDataHeader|].
  apply Forall2_cons; [apply by_reads; exact k_DmrIpUdp_UdpIpv4CompressedHeader|].
  apply Forall2_cons; [apply by_reads; exact k_DmrIpUdp|].
  apply Forall2_cons; [apply by_reads; exact k_FullLinkControl_GpsInfoLcPdu|].
  apply Forall2_cons; [apply by_reads; exact k_FullLinkControl_GroupVoiceChannelUser|].
  apply Forall2_cons; [apply by_reads; exact k_FullLinkControl_UnitToUnitVoiceChannelUser|].
  apply Forall2_cons; [apply by_reads; exact k_FullLinkControl_TalkerAliasHeader|].
  apply Forall2_cons; [apply by_reads; exact k_FullLinkControl_TalkerAliasContinuation|].
  apply Forall2_cons; [apply by_reads; exact k_FullLinkControl|].
  apply Forall2_cons; [apply by_reads; exact k_Homebrew2015_TypeMasterPing|].
  apply Forall2_cons; [apply by_reads; exact k_Homebrew2015_TypeRepeaterPong|].
  apply Forall2_cons; [apply by_reads; exact k_Homebrew2015_TypeRepeaterLoginResponse|].
  apply Forall2_cons; [apply by_reads; exact k_Homebrew2015_TypeRepeaterLoginRequest|].
  apply Forall2_cons; [apply by_reads; exact k_Homebrew2015_TypeMasterNotAccept|].
  apply Forall2_cons; [apply by_reads; exact k_Homebrew2015_TypeMasterRepeaterAck|].
  apply Forall2_cons; [apply by_reads; exact k_Homebrew2015_TypeMasterClosing|].
  apply Forall2_cons; [apply by_reads; exact k_Homebrew2015_TypeDmrData|].
  apply Forall2_cons; [apply by_reads; exact k_Homebrew2015_TypeRepeaterOptions|].
  apply Forall2_cons; [apply by_reads; exact k_Homebrew2015_TypeRepeaterClosing|].
  apply Forall2_cons; [apply by_reads; exact k_Homebrew2015_TypeRepeaterConfiguration|].
  apply Forall2_cons; [apply by_reads0; exact k_Homebrew2015|].
  apply Forall2_cons; [apply by_reads; exact k_Mmdvm2020_TypeMasterPong|].
  apply Forall2_cons; [apply by_reads; exact k_Mmdvm2020_TypeRadioPosition|].
  apply Forall2_cons; [apply by_reads; exact k_Mmdvm2020_TypeTalkerAlias|].
  apply Forall2_cons; [apply by_reads; exact k_Mmdvm2020_TypeRepeaterLoginResponse|].
  apply Forall2_cons; [apply by_reads; exact k_Mmdvm2020_TypeRepeaterLoginRequest|].
  apply Forall2_cons; [apply by_reads; exact k_Mmdvm2020_TypeMasterNotAccept|].
  apply Forall2_cons; [apply by_reads; exact k_Mmdvm2020_TypeUnknown|].
  apply Forall2_cons; [apply by_reads; exact k_Mmdvm2020_TypeMasterRepeaterAck|].
  apply Forall2_cons; [apply by_reads; exact k_Mmdvm2020_TypeMasterClosing|].
  apply Forall2_cons; [apply by_reads; exact k_Mmdvm2020_TypeDmrData|].
  apply Forall2_cons; [apply by_reads; exact k_Mmdvm2020_TypeRepeaterBeacon|].
  apply Forall2_cons; [apply by_reads; exact k_Mmdvm2020_TypeRepeaterOptions|].
  apply Forall2_cons; [apply by_reads; exact k_Mmdvm2020_TypeRepeaterClosing|].
  apply Forall2_cons; [apply by_reads; exact k_Mmdvm2020_TypeRepeaterConfiguration|].
  apply Forall2_cons; [apply by_reads; exact k_Mmdvm2020_TypeRepeaterPing|].
  apply Forall2_cons; [apply by_reads0; exact k_Mmdvm2020|].
  apply Forall2_cons; [apply by_reads; exact k_RadioIp|].
  apply Forall2_cons; [apply by_reads; exact k_RadioId|].
  apply Forall2_cons; [apply by_reads; exact k_Datetimestring|].
  apply Forall2_cons; [apply by_reads; exact k_Intervalstring|].
  apply Forall2_cons; [apply by_reads; exact k_Gpsdata|].
  apply Forall2_cons; [apply by_reads; exact k_RadioRegistrationService|].
  apply Forall2_cons; [apply by_reads; exact k_DataDeliveryStates|].
  apply Forall2_cons; [apply by_reads; exact k_DataTransmitProtocol_LastDataSlice|].
  apply Forall2_cons; [apply by_reads; exact k_DataTransmitProtocol_DataSliceAnswer|].
  apply Forall2_cons; [apply by_reads; exact k_DataTransmitProtocol_LastDataSliceAnswer|].
  apply Forall2_cons; [apply by_reads; exact k_DataTransmitProtocol_DtpAnswer|].
  apply Forall2_cons; [apply by_reads; exact k_DataTransmitProtocol|].
  apply Forall2_cons; [apply by_reads; exact k_TextMessageProtocol|].
  apply Forall2_cons; [apply by_reads; exact k_LocationProtocol_TriggeredReportStopAnswer|].
  apply Forall2_cons; [apply by_reads; exact k_LocationProtocol_ConditionReportRequest|].
  apply Forall2_cons; [apply by_reads; exact k_LocationProtocol_QuickGpsPayload|].
  apply Forall2_cons; [apply by_reads; exact k_LocationProtocol_ConditionQuickGpsRequest|].
  apply Forall2_cons; [apply by_reads; exact k_LocationProtocol_ConditionReport|].
  apply Forall2_cons; [apply by_reads; exact k_LocationProtocol_EmergencyReport|].
  apply Forall2_cons; [apply by_reads; exact k_LocationProtocol_TriggeredReportAnswer|].
  apply Forall2_cons; [apply by_reads; exact k_LocationProtocol_StandardAnswerWithRssi|].
  apply Forall2_cons; [apply by_reads; exact k_LocationProtocol_StandardRequest|].
  apply Forall2_cons; [apply by_reads; exact k_LocationProtocol_TriggeredReportRequest|].
  apply Forall2_cons; [apply by_reads; exact k_LocationProtocol_StandardAnswer|].
  apply Forall2_cons; [apply by_reads; exact k_LocationProtocol_ConditionReportAnswer|].
  apply Forall2_cons; [apply by_reads; exact k_LocationProtocol_EmergencyReportStopRequest|].
  apply Forall2_cons; [apply by_reads; exact k_LocationProtocol_ConditionQuickGpsAnswer|].
  apply Forall2_cons; [apply by_reads; exact k_LocationProtocol_TriggeredReport|].
  apply Forall2_cons; [apply by_reads; exact k_LocationProtocol_ConditionReportWithRssi|].
  apply Forall2_cons; [apply by_reads; exact k_LocationProtocol_EmergencyReportStopAnswer|].
  apply Forall2_cons; [apply by_reads; exact k_LocationProtocol_TriggeredReportStopRequest|].
  apply Forall2_cons; [apply by_reads; exact k_LocationProtocol|].
  apply Forall2_cons; [apply by_reads; exact k_TelemetryProtocol_StandardStatusReport|].
  apply Forall2_cons; [apply by_reads; exact k_TelemetryProtocol_VioExtendedStatus|].
  apply Forall2_cons; [apply by_reads; exact k_TelemetryProtocol_RemoteControlAnswer|].
  apply Forall2_cons; [apply by_reads; exact k_TelemetryProtocol_RemoteControlRequest|].
  apply Forall2_cons; [apply by_reads; exact k_TelemetryProtocol_ExtendedStatusReport|].
  apply Forall2_cons; [apply by_reads; exact k_TelemetryProtocol_StandardStatusRequest|].
  apply Forall2_cons; [apply by_reads; exact k_TelemetryProtocol|].
  apply Forall2_cons; [apply by_reads; exact k_RadioControlProtocol_BroadcastStatusConfigurationReply|].
  apply Forall2_cons; [apply by_reads; exact k_RadioControlProtocol_BroadcastConfiguration|].
  apply Forall2_cons; [apply by_reads; exact k_RadioControlProtocol_BroadcastStatusConfigurationRequest|].
  apply Forall2_cons; [apply by_reads; exact k_RadioControlProtocol_CallRequest|].
  apply Forall2_cons; [apply by_reads; exact k_RadioControlProtocol_RemoveRadioReply|].
  apply Forall2_cons; [apply by_reads; exact k_RadioControlProtocol_RemoveRadioRequest|].
  apply Forall2_cons; [apply by_reads; exact k_RadioControlProtocol_CallReply|].
  apply Forall2_cons; [apply by_reads; exact k_RadioControlProtocol|].
  apply Forall2_cons; [apply by_reads; exact k_HyteraDmrApplicationProtocol_UndefinedProtocol|].
  apply Forall2_cons; [apply by_reads; exact k_HyteraDmrApplicationProtocol|].
  apply Forall2_cons; [apply by_reads; exact k_HyteraRadioNetworkProtocol|].
  apply Forall2_cons; [apply by_reads; exact k_HyteraSimpleTransportReliabilityProtocol_Option|].
  apply Forall2_cons; [apply by_reads; exact k_HyteraSimpleTransportReliabilityProtocol|].
  apply Forall2_cons; [apply by_reads; exact k_IpSiteConnectProtocol|].
  apply Forall2_cons; [apply by_reads; exact k_IpSiteConnectHeartbeat_Keepalive|].
  apply Forall2_cons; [apply by_reads; exact k_IpSiteConnectHeartbeat_PingPong|].
  apply Forall2_cons; [apply by_reads; exact k_IpSiteConnectHeartbeat_Unknown|].
  apply Forall2_cons; [apply by_reads; exact k_IpSiteConnectHeartbeat|].
  apply Forall2_cons; [apply by_reads; exact k_RealTimeTransportProtocol_FixedHeader|].
  apply Forall2_cons; [apply by_reads; exact k_RealTimeTransportProtocol_HeaderExtension|].
  apply Forall2_cons; [apply by_reads; exact k_RealTimeTransportProtocol|].
  apply Forall2_cons; [apply by_reads; exact k_AutomaticRegistrationService_DeviceRegistrationMessageHeader|].
  apply Forall2_cons; [apply by_reads; exact k_AutomaticRegistrationService_MessageHeaderBits|].
  apply Forall2_cons; [apply by_reads; exact k_AutomaticRegistrationService_DeviceDeregistrationMessage|].
  apply Forall2_cons; [apply by_reads; exact k_AutomaticRegistrationService_DeviceRegistrationAcknowledgementFailureReason|].
  apply Forall2_cons; [apply by_reads; exact k_AutomaticRegistrationService_DeviceRegistrationAcknowledgementHeader|].
  apply Forall2_cons; [apply by_reads; exact k_AutomaticRegistrationService_ArsQueryMessage|].
  apply Forall2_cons; [apply by_reads0; exact k_AutomaticRegistrationService|].
  apply Forall2_cons; [apply by_reads; exact k_MotTextMessageProtocol_TextMessageHeaderSequenceAndEncoding|].
  apply Forall2_cons; [apply by_reads; exact k_MotTextMessageProtocol_TmsServiceAvailabilityHeader|].
  apply Forall2_cons; [apply by_reads; exact k_MotTextMessageProtocol_MessageHeaderBits|].
  apply Forall2_cons; [apply by_reads; exact k_MotTextMessageProtocol_TmsAcknowledgementHeaderSequenceNumber|].
  apply Forall2_cons; [apply by_reads; exact k_MotTextMessageProtocol_TmsServiceAvailabilityAcknowledgement|].
  apply Forall2_cons; [apply by_reads0; exact k_MotTextMessageProtocol|].
  apply Forall2_cons; [apply by_reads; exact k_MotorolaBinaryXml_OpaqueElementValue|].
  apply Forall2_cons; [apply by_reads; exact k_MotorolaBinaryXml_Opaque1byteValue|].
  apply Forall2_cons; [apply by_reads; exact k_MotorolaBinaryXml_Opaque2byteValue|].
  apply Forall2_cons; [apply by_reads; exact k_MotorolaBinaryXml_Opaque3byteValue|].
  apply Forall2_cons; [apply by_reads; exact k_MotorolaBinaryXml_Opaque4byteValue|].
  apply Forall2_cons; [apply by_reads; exact k_MotorolaBinaryXml_Opaque5byteValue|].
  apply Forall2_cons; [apply by_reads; exact k_MotorolaBinaryXml_Uintvar|].
  apply Forall2_cons; [apply by_reads; exact k_MotorolaBinaryXml_Sintvar|].
  apply Forall2_cons; [apply by_reads; exact k_MotorolaBinaryXml_ConstantDataTableReference|].
  apply Forall2_cons; [apply by_reads; exact k_MotorolaBinaryXml_LrrpElement|].
  apply Forall2_cons; [apply by_reads; exact k_MotorolaBinaryXml_LrrpImmediateRequestNcdt|].
  apply Forall2_cons; [apply by_reads; exact k_MotorolaBinaryXml_Sfloatvar|].
  apply Forall2_cons; [apply by_reads; exact k_MotorolaBinaryXml_Ufloatvar|].
  apply Forall2_cons; [apply by_reads; exact k_MotorolaBinaryXml_MbxmlDocument|].
  apply Forall2_cons; [apply by_reads; exact k_MotorolaBinaryXml|].
  apply Forall2_nil.
Qed.

Theorem C54_parsers_implement_their_definitions :
  forall i name T p, nth_error definitions i = Some (name, T) -> nth_error all_parsers i = Some (name, p) ->
  forall rt s, ksy_read rt T s = p rt s.
Proof.
  intros i name T p. revert i. generalize all_implement. generalize definitions all_parsers. intros D P H.
  induction H as [|d q D P [_ E] _ IH]; intros [|i] HD HP; try discriminate; cbn [nth_error] in *; [|eauto].
  intros rt s. assert (d = (name, T)) as -> by congruence. assert (q = (name, p)) as -> by congruence. apply E.
Qed.

(** In particular, from bytes. *)
Theorem C54_from_bytes : forall name p, In (name, p) all_parsers ->
  exists T, In (name, T) definitions /\ forall rt b, from_bytes (ksy_read rt T) b = from_bytes (p rt) b.
Proof.
  intros name p H. apply In_nth_error in H as [i H].
  assert (exists d, nth_error definitions i = Some d) as [[n T] D].
  { destruct (nth_error definitions i) as [d|] eqn:E; [eauto|]. apply nth_error_None in E.
    assert (i < List.length all_parsers)%nat by (apply nth_error_Some; congruence).
    change (List.length all_parsers) with (List.length definitions) in *. exfalso. eapply Nat.lt_irrefl, Nat.lt_le_trans; eassumption. }
  assert (n = name) as ->.
  { pose proof (map_nth_error fst _ _ D) as A. pose proof (map_nth_error fst _ _ H) as B. rewrite C54_every_parser_has_its_definition in A. cbn [fst] in *. congruence. }
  exists T. split; [eapply nth_error_In; eassumption|]. intros rt b. unfold from_bytes.
  rewrite (C54_parsers_implement_their_definitions i name T p D H). reflexivity.
Qed.

(** The enums: same numbers, same names, for all of them. *)
Definition declared_enums : list enumdef := [
  K_DmrCsbk_CsbkoTypes;
  K_DmrCsbk_CsbkDataOrCsbk;
  K_DmrCsbk_CsbkGroupOrIndividual;
  K_DmrCsbk_AnswerResponse;
  K_DmrDataHeader_UdtFormats;
  K_DmrDataHeader_CsbkMbcUdtOpcodes;
  K_DmrDataHeader_DataPacketFormats;
  K_DmrDataHeader_SapIdentifiers;
  K_DmrDataHeader_DefinedDataFormats;
  K_DmrDataHeader_ResponsePacketClasses;
  K_DmrIpUdp_SourceIpAddressIds;
  K_DmrIpUdp_DestinationIpAddressIds;
  K_DmrIpUdp_UdpPortIds;
  K_FullLinkControl_Flcos;
  K_FullLinkControl_PositionErrors;
  K_FullLinkControl_TalkerDataFormats;
  K_FullLinkControl_FeatureSetIds;
  K_Homebrew2015_Timeslots;
  K_Homebrew2015_CallTypes;
  K_Homebrew2015_FrameTypes;
  K_Mmdvm2020_TalkerAliasTypes;
  K_Mmdvm2020_FrameTypes;
  K_Mmdvm2020_CallTypes;
  K_Mmdvm2020_PositionErrors;
  K_Mmdvm2020_Timeslots;
  K_RadioRegistrationService_RrsTypes;
  K_DataDeliveryStates_StateTypes;
  K_DataDeliveryStates_Results;
  K_DataTransmitProtocol_ServiceTypes;
  K_DataTransmitProtocol_ServiceSpecificTypes;
  K_DataTransmitProtocol_Results;
  K_TextMessageProtocol_AckFlags;
  K_TextMessageProtocol_OptionFlags;
  K_TextMessageProtocol_ServiceTypes;
  K_TextMessageProtocol_ResultCodes;
  K_LocationProtocol_CmdTypes;
  K_LocationProtocol_LpSpecificTypes;
  K_LocationProtocol_LpGeneralTypes;
  K_LocationProtocol_TriggerTypes;
  K_LocationProtocol_ResultCodes;
  K_TelemetryProtocol_ServiceTypes;
  K_TelemetryProtocol_ResultTypes;
  K_TelemetryProtocol_CallTypes;
  K_TelemetryProtocol_OperationTypes;
  K_TelemetryProtocol_PcFlagTypes;
  K_TelemetryProtocol_ServiceSpecificTypes;
  K_TelemetryProtocol_ControlResultTypes;
  K_RadioControlProtocol_ServiceTypes;
  K_RadioControlProtocol_CallTypes;
  K_RadioControlProtocol_ReplyResults;
  K_HyteraDmrApplicationProtocol_MessageHeaderTypes;
  K_HyteraRadioNetworkProtocol_Opcodes;
  K_HyteraSimpleTransportReliabilityProtocol_OptionCommands;
  K_IpSiteConnectProtocol_PacketTypes;
  K_IpSiteConnectProtocol_FrameTypes;
  K_IpSiteConnectProtocol_CallTypes;
  K_IpSiteConnectProtocol_SlotTypes;
  K_IpSiteConnectProtocol_Timeslots;
  K_RealTimeTransportProtocol_RtpPayloadTypes;
  K_RealTimeTransportProtocol_CallTypes;
  K_AutomaticRegistrationService_RegistrationEvents;
  K_AutomaticRegistrationService_FailureReasons;
  K_MotTextMessageProtocol_TmsServiceCapability;
  K_MotorolaBinaryXml_Docids;
  K_MotorolaBinaryXml_LrrpElements].

Theorem C54_enums : declared_enums = all_enums.
Proof. vm_compute. reflexivity. Qed.

(** The instances ("properties" in Python): the value, the memo attribute it leaves and the state of the
    stream are those the definition asks for, on any object (unless the attributes the computation needs
    are missing or of the wrong kind). *)
Definition instances (rt : runtime) : list (inst * (live -> res pyval * live)) := [
  (I_Homebrew2015_fifth_letter, Homebrew2015_fifth_letter_property rt);
  (I_Mmdvm2020_fifth_letter, Mmdvm2020_fifth_letter_property rt);
  (I_TelemetryProtocol_specific_service, TelemetryProtocol_specific_service_property rt);
  (I_TextMessageProtocol_option_sum_len, TextMessageProtocol_option_sum_len_property);
  (I_RealTimeTransportProtocol_len_padding_if_exists, RealTimeTransportProtocol_len_padding_if_exists_property rt);
  (I_RealTimeTransportProtocol_len_padding, RealTimeTransportProtocol_len_padding_property rt);
  (I_MotTextMessageProtocol_custom_pdu_type, MotTextMessageProtocol_custom_pdu_type_property);
  (I_DmrDataHeader_DataHeaderShortRaw_appended_blocks, appended_blocks);
  (I_DmrDataHeader_DataHeaderShortDefined_appended_blocks, appended_blocks);
  (I_DmrDataHeader_DataHeaderShortStatusPrecoded_appended_blocks, appended_blocks);
  (I_Gpsdata_gps_available, Gpsdata_gps_available);
  (I_IpSiteConnectProtocol_source_radio_id, IpSiteConnectProtocol_source_radio_id);
  (I_IpSiteConnectProtocol_destination_radio_id, IpSiteConnectProtocol_destination_radio_id);
  (I_IpSiteConnectProtocol_color_code, IpSiteConnectProtocol_color_code);
  (I_IpSiteConnectProtocol_is_wakeup, IpSiteConnectProtocol_is_wakeup);
  (I_LocationProtocol_opcode, LocationProtocol_opcode rt);
  (I_RadioId_radio_id, RadioId_radio_id);
  (I_RadioIp_radio_id, RadioIp_radio_id);
  (I_RadioIp_radio_ip, RadioIp_radio_ip);
  (I_MotTextMessageProtocol_TmsAcknowledgementHeaderSequenceNumber_sequence_number, MotTextMessageProtocol_TmsAcknowledgementHeader_sequence_number);
  (I_MotTextMessageProtocol_TextMessageHeaderSequenceAndEncoding_sequence_number, MotTextMessageProtocol_TextMessageHeader_sequence_number);
  (I_DmrDataHeader_data, DmrDataHeader_data rt)].

Theorem C54_instances : forall rt i get, In (i, get) (instances rt) -> forall o, agree (ksy_get rt i o) (get o).
Proof.
  intros rt i get H. unfold instances in H.
  repeat (destruct H as [H|H]; [injection H as <- <-; intros o|]); [..|destruct H].
  - apply i_Homebrew2015_fifth_letter.
  - apply i_Mmdvm2020_fifth_letter.
  - apply i_TelemetryProtocol_specific_service.
  - apply i_TextMessageProtocol_option_sum_len.
  - apply i_RealTimeTransportProtocol_len_padding_if_exists.
  - apply i_RealTimeTransportProtocol_len_padding.
  - apply i_MotTextMessageProtocol_custom_pdu_type.
  - apply i_DmrDataHeader_DataHeaderShortRaw_appended_blocks.
  - apply i_DmrDataHeader_DataHeaderShortDefined_appended_blocks.
  - apply i_DmrDataHeader_DataHeaderShortStatusPrecoded_appended_blocks.
  - apply i_Gpsdata_gps_available.
  - apply i_IpSiteConnectProtocol_source_radio_id.
  - apply i_IpSiteConnectProtocol_destination_radio_id.
  - apply i_IpSiteConnectProtocol_color_code.
  - apply i_IpSiteConnectProtocol_is_wakeup.
  - apply i_LocationProtocol_opcode.
  - apply i_RadioId_radio_id.
  - apply i_RadioIp_radio_id.
  - apply i_RadioIp_radio_ip.
  - apply i_MotTextMessageProtocol_TmsAcknowledgementHeaderSequenceNumber_sequence_number.
  - apply i_MotTextMessageProtocol_TextMessageHeaderSequenceAndEncoding_sequence_number.
  - apply i_DmrDataHeader_data.
Qed.

(** ** Cases *)
(** A DMR data header: the definition reads 12 bytes into the object the class reads. *)
Example C54_example :
  from_bytes (ksy_read V011 T_DmrDataHeader) (B [2; 96; 35; 55; 170; 35; 55; 171; 130; 0; 1; 2])
    = from_bytes p_DmrDataHeader (B [2; 96; 35; 55; 170; 35; 55; 171; 130; 0; 1; 2])
  /\ exists a, from_bytes (ksy_read V011 T_DmrDataHeader) (B [2; 96; 35; 55; 170; 35; 55; 171; 130; 0; 1; 2]) = Ok (VObj "DmrDataHeader" a)
       /\ lookup "data_packet_format" a = Some (VEnum "DmrDataHeader.DataPacketFormats" "data_packet_unconfirmed" 2).
Proof. vm_compute. split; [reflexivity|]. eexists. split; reflexivity. Qed.
(** ... and a link control cut short is refused by both with the same error. *)
Example C54_example_short :
  from_bytes (ksy_read V010 T_FullLinkControl) (B [0; 0; 0; 0; 0]) = from_bytes (p_FullLinkControl V010) (B [0; 0; 0; 0; 0])
  /\ exists e, from_bytes (ksy_read V010 T_FullLinkControl) (B [0; 0; 0; 0; 0]) = Err e.
Proof. vm_compute. split; [reflexivity|]. eexists. reflexivity. Qed.
(** An instance with a seek: the body of the data header above, on the live object. *)
Example C54_example_instance : forall o, open_object p_DmrDataHeader (B [2; 96; 35; 55; 170; 35; 55; 171; 130; 0; 1; 2]) = Ok o ->
  ksy_get V011 I_DmrDataHeader_data o = DmrDataHeader_data V011 o /\ exists c a, fst (DmrDataHeader_data V011 o) = Ok (VObj c a).
Proof. intros o H. vm_compute in H. injection H as <-. vm_compute. split; [reflexivity|]. do 2 eexists. reflexivity. Qed.
Print Assumptions C54_every_parser_has_its_definition.
Print Assumptions C54_parsers_implement_their_definitions.
Print Assumptions C54_from_bytes.
Print Assumptions C54_enums.
Print Assumptions C54_instances.
