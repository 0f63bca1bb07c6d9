(** The parsers of the model are their .ksy definitions, interpreted: hytera application protocols. *)
From Verif Require Import PyBase Runtime Codec Enums EtsiModel HomebrewModel HyteraModel MotorolaModel Ksy KsyDefs KsyTac.
Open Scope string_scope.
Open Scope list_scope.
Open Scope Z_scope.
Lemma k_RadioIp : forall rt, reads rt T_RadioIp (p_RadioIp rt).
Proof. intros rt fs s; unfold T_RadioIp, p_RadioIp; kcbn; ksy. Qed.
#[export] Hint Resolve k_RadioIp : ksy.
Lemma k_DataDeliveryStates : forall rt, reads rt T_DataDeliveryStates (p_DataDeliveryStates rt).
Proof. intros rt fs s; unfold T_DataDeliveryStates, p_DataDeliveryStates; rewrite ?E_DataDeliveryStates_Results, ?E_DataDeliveryStates_StateTypes; kcbn; refold rt T_RadioIp; ksy. Qed.
#[export] Hint Resolve k_DataDeliveryStates : ksy.
Lemma k_DataTransmitProtocol_DtpAnswer : forall rt, reads rt T_DataTransmitProtocol_DtpAnswer (p_DataTransmitProtocol_DtpAnswer rt).
Proof. intros rt fs s; unfold T_DataTransmitProtocol_DtpAnswer, p_DataTransmitProtocol_DtpAnswer; rewrite ?E_DataTransmitProtocol_Results; kcbn; refold rt T_RadioIp; ksy. Qed.
#[export] Hint Resolve k_DataTransmitProtocol_DtpAnswer : ksy.
Lemma k_DataTransmitProtocol_DataSliceAnswer : forall rt, reads rt T_DataTransmitProtocol_DataSliceAnswer (p_DataTransmitProtocol_DataSliceAnswer rt).
Proof. intros rt fs s; unfold T_DataTransmitProtocol_DataSliceAnswer, p_DataTransmitProtocol_DataSliceAnswer; rewrite ?E_DataTransmitProtocol_Results; kcbn; refold rt T_RadioIp; ksy. Qed.
#[export] Hint Resolve k_DataTransmitProtocol_DataSliceAnswer : ksy.
Lemma k_DataTransmitProtocol_LastDataSlice : forall rt, reads rt T_DataTransmitProtocol_LastDataSlice (p_DataTransmitProtocol_LastDataSlice rt).
Proof. intros rt fs s; unfold T_DataTransmitProtocol_LastDataSlice, p_DataTransmitProtocol_LastDataSlice; kcbn; refold rt T_RadioIp; ksy. Qed.
#[export] Hint Resolve k_DataTransmitProtocol_LastDataSlice : ksy.
Lemma k_DataTransmitProtocol_LastDataSliceAnswer : forall rt, reads rt T_DataTransmitProtocol_LastDataSliceAnswer (p_DataTransmitProtocol_LastDataSliceAnswer rt).
Proof. intros rt fs s; unfold T_DataTransmitProtocol_LastDataSliceAnswer, p_DataTransmitProtocol_LastDataSliceAnswer; rewrite ?E_DataTransmitProtocol_Results; kcbn; refold rt T_RadioIp; ksy. Qed.
#[export] Hint Resolve k_DataTransmitProtocol_LastDataSliceAnswer : ksy.
Lemma k_DataTransmitProtocol : forall rt, reads rt T_DataTransmitProtocol (p_DataTransmitProtocol rt).
Proof. intros rt fs s; unfold T_DataTransmitProtocol, p_DataTransmitProtocol, T_DataTransmitProtocol_DtpRequest, p_DataTransmitProtocol_DtpRequest, T_DataTransmitProtocol_DataSliceTransmit, p_DataTransmitProtocol_DataSliceTransmit; rewrite ?E_DataTransmitProtocol_ServiceSpecificTypes, ?E_DataTransmitProtocol_ServiceTypes; kcbn; refold rt T_DataTransmitProtocol_DataSliceAnswer; refold rt T_DataTransmitProtocol_DtpAnswer; refold rt T_DataTransmitProtocol_LastDataSlice; refold rt T_DataTransmitProtocol_LastDataSliceAnswer; refold rt T_RadioIp; ksy. Qed.
#[export] Hint Resolve k_DataTransmitProtocol : ksy.
Lemma k_Datetimestring : forall rt, reads rt T_Datetimestring (p_Datetimestring rt).
Proof. intros rt fs s; unfold T_Datetimestring, p_Datetimestring; kcbn; ksy. Qed.
#[export] Hint Resolve k_Datetimestring : ksy.
Lemma k_Gpsdata : forall rt, reads rt T_Gpsdata (p_Gpsdata rt).
Proof. intros rt fs s; unfold T_Gpsdata, p_Gpsdata; kcbn; ksy. Qed.
#[export] Hint Resolve k_Gpsdata : ksy.
Lemma k_HyteraDmrApplicationProtocol_UndefinedProtocol : forall rt, reads rt T_HyteraDmrApplicationProtocol_UndefinedProtocol (p_HyteraDmrApplicationProtocol_UndefinedProtocol rt).
Proof. intros rt fs s; unfold T_HyteraDmrApplicationProtocol_UndefinedProtocol, p_HyteraDmrApplicationProtocol_UndefinedProtocol; kcbn; ksy. Qed.
#[export] Hint Resolve k_HyteraDmrApplicationProtocol_UndefinedProtocol : ksy.
Lemma k_LocationProtocol_ConditionQuickGpsAnswer : forall rt, reads rt T_LocationProtocol_ConditionQuickGpsAnswer (p_LocationProtocol_ConditionQuickGpsAnswer rt).
Proof. intros rt fs s; unfold T_LocationProtocol_ConditionQuickGpsAnswer, p_LocationProtocol_ConditionQuickGpsAnswer; rewrite ?E_LocationProtocol_CmdTypes, ?E_LocationProtocol_ResultCodes; kcbn; refold rt T_RadioIp; ksy. Qed.
#[export] Hint Resolve k_LocationProtocol_ConditionQuickGpsAnswer : ksy.
Lemma k_Intervalstring : forall rt, reads rt T_Intervalstring (p_Intervalstring rt).
Proof. intros rt fs s; unfold T_Intervalstring, p_Intervalstring; kcbn; ksy. Qed.
#[export] Hint Resolve k_Intervalstring : ksy.
Lemma k_LocationProtocol_QuickGpsPayload : forall rt, reads rt T_LocationProtocol_QuickGpsPayload (p_LocationProtocol_QuickGpsPayload rt).
Proof. intros rt fs s; unfold T_LocationProtocol_QuickGpsPayload, p_LocationProtocol_QuickGpsPayload; kcbn; refold rt T_Datetimestring; refold rt T_Intervalstring; ksy. Qed.
#[export] Hint Resolve k_LocationProtocol_QuickGpsPayload : ksy.
Lemma k_LocationProtocol_ConditionQuickGpsRequest : forall rt, reads rt T_LocationProtocol_ConditionQuickGpsRequest (p_LocationProtocol_ConditionQuickGpsRequest rt).
Proof. intros rt fs s; unfold T_LocationProtocol_ConditionQuickGpsRequest, p_LocationProtocol_ConditionQuickGpsRequest; rewrite ?E_LocationProtocol_CmdTypes; kcbn; refold rt T_LocationProtocol_QuickGpsPayload; refold rt T_RadioIp; ksy. Qed.
#[export] Hint Resolve k_LocationProtocol_ConditionQuickGpsRequest : ksy.
Lemma k_LocationProtocol_ConditionReport : forall rt, reads rt T_LocationProtocol_ConditionReport (p_LocationProtocol_ConditionReport rt).
Proof. intros rt fs s; unfold T_LocationProtocol_ConditionReport, p_LocationProtocol_ConditionReport; kcbn; refold rt T_Gpsdata; refold rt T_RadioIp; ksy. Qed.
#[export] Hint Resolve k_LocationProtocol_ConditionReport : ksy.
Lemma k_LocationProtocol_ConditionReportAnswer : forall rt, reads rt T_LocationProtocol_ConditionReportAnswer (p_LocationProtocol_ConditionReportAnswer rt).
Proof. intros rt fs s; unfold T_LocationProtocol_ConditionReportAnswer, p_LocationProtocol_ConditionReportAnswer; rewrite ?E_LocationProtocol_ResultCodes, ?E_LocationProtocol_TriggerTypes; kcbn; refold rt T_RadioIp; ksy. Qed.
#[export] Hint Resolve k_LocationProtocol_ConditionReportAnswer : ksy.
Lemma k_LocationProtocol_ConditionReportRequest : forall rt, reads rt T_LocationProtocol_ConditionReportRequest (p_LocationProtocol_ConditionReportRequest rt).
Proof. intros rt fs s; unfold T_LocationProtocol_ConditionReportRequest, p_LocationProtocol_ConditionReportRequest; kcbn; refold rt T_Datetimestring; refold rt T_Intervalstring; refold rt T_RadioIp; ksy. Qed.
#[export] Hint Resolve k_LocationProtocol_ConditionReportRequest : ksy.
Lemma k_LocationProtocol_ConditionReportWithRssi : forall rt, reads rt T_LocationProtocol_ConditionReportWithRssi (p_LocationProtocol_ConditionReportWithRssi rt).
Proof. intros rt fs s; unfold T_LocationProtocol_ConditionReportWithRssi, p_LocationProtocol_ConditionReportWithRssi; rewrite ?E_LocationProtocol_ResultCodes; kcbn; refold rt T_Gpsdata; refold rt T_RadioIp; ksy. Qed.
#[export] Hint Resolve k_LocationProtocol_ConditionReportWithRssi : ksy.
Lemma k_LocationProtocol_EmergencyReport : forall rt, reads rt T_LocationProtocol_EmergencyReport (p_LocationProtocol_EmergencyReport rt).
Proof. intros rt fs s; unfold T_LocationProtocol_EmergencyReport, p_LocationProtocol_EmergencyReport; kcbn; refold rt T_Gpsdata; refold rt T_RadioIp; ksy. Qed.
#[export] Hint Resolve k_LocationProtocol_EmergencyReport : ksy.
Lemma k_LocationProtocol_EmergencyReportStopAnswer : forall rt, reads rt T_LocationProtocol_EmergencyReportStopAnswer (p_LocationProtocol_EmergencyReportStopAnswer rt).
Proof. intros rt fs s; unfold T_LocationProtocol_EmergencyReportStopAnswer, p_LocationProtocol_EmergencyReportStopAnswer; rewrite ?E_LocationProtocol_ResultCodes; kcbn; refold rt T_RadioIp; ksy. Qed.
#[export] Hint Resolve k_LocationProtocol_EmergencyReportStopAnswer : ksy.
Lemma k_LocationProtocol_EmergencyReportStopRequest : forall rt, reads rt T_LocationProtocol_EmergencyReportStopRequest (p_LocationProtocol_EmergencyReportStopRequest rt).
Proof. intros rt fs s; unfold T_LocationProtocol_EmergencyReportStopRequest, p_LocationProtocol_EmergencyReportStopRequest; kcbn; refold rt T_RadioIp; ksy. Qed.
#[export] Hint Resolve k_LocationProtocol_EmergencyReportStopRequest : ksy.
Lemma k_LocationProtocol_StandardAnswer : forall rt, reads rt T_LocationProtocol_StandardAnswer (p_LocationProtocol_StandardAnswer rt).
Proof. intros rt fs s; unfold T_LocationProtocol_StandardAnswer, p_LocationProtocol_StandardAnswer; rewrite ?E_LocationProtocol_ResultCodes; kcbn; refold rt T_Gpsdata; refold rt T_RadioIp; ksy. Qed.
#[export] Hint Resolve k_LocationProtocol_StandardAnswer : ksy.
Lemma k_LocationProtocol_StandardAnswerWithRssi : forall rt, reads rt T_LocationProtocol_StandardAnswerWithRssi (p_LocationProtocol_StandardAnswerWithRssi rt).
Proof. intros rt fs s; unfold T_LocationProtocol_StandardAnswerWithRssi, p_LocationProtocol_StandardAnswerWithRssi; rewrite ?E_LocationProtocol_ResultCodes; kcbn; refold rt T_Gpsdata; refold rt T_RadioIp; ksy. Qed.
#[export] Hint Resolve k_LocationProtocol_StandardAnswerWithRssi : ksy.
Lemma k_LocationProtocol_StandardRequest : forall rt, reads rt T_LocationProtocol_StandardRequest (p_LocationProtocol_StandardRequest rt).
Proof. intros rt fs s; unfold T_LocationProtocol_StandardRequest, p_LocationProtocol_StandardRequest; kcbn; refold rt T_RadioIp; ksy. Qed.
#[export] Hint Resolve k_LocationProtocol_StandardRequest : ksy.
Lemma k_LocationProtocol_TriggeredReport : forall rt, reads rt T_LocationProtocol_TriggeredReport (p_LocationProtocol_TriggeredReport rt).
Proof. intros rt fs s; unfold T_LocationProtocol_TriggeredReport, p_LocationProtocol_TriggeredReport; kcbn; refold rt T_Gpsdata; refold rt T_Intervalstring; refold rt T_RadioIp; ksy. Qed.
#[export] Hint Resolve k_LocationProtocol_TriggeredReport : ksy.
Lemma k_LocationProtocol_TriggeredReportAnswer : forall rt, reads rt T_LocationProtocol_TriggeredReportAnswer (p_LocationProtocol_TriggeredReportAnswer rt).
Proof. intros rt fs s; unfold T_LocationProtocol_TriggeredReportAnswer, p_LocationProtocol_TriggeredReportAnswer; rewrite ?E_LocationProtocol_ResultCodes; kcbn; refold rt T_RadioIp; ksy. Qed.
#[export] Hint Resolve k_LocationProtocol_TriggeredReportAnswer : ksy.
Lemma k_LocationProtocol_TriggeredReportRequest : forall rt, reads rt T_LocationProtocol_TriggeredReportRequest (p_LocationProtocol_TriggeredReportRequest rt).
Proof. intros rt fs s; unfold T_LocationProtocol_TriggeredReportRequest, p_LocationProtocol_TriggeredReportRequest; kcbn; refold rt T_Datetimestring; refold rt T_Intervalstring; refold rt T_RadioIp; ksy. Qed.
#[export] Hint Resolve k_LocationProtocol_TriggeredReportRequest : ksy.
Lemma k_LocationProtocol_TriggeredReportStopAnswer : forall rt, reads rt T_LocationProtocol_TriggeredReportStopAnswer (p_LocationProtocol_TriggeredReportStopAnswer rt).
Proof. intros rt fs s; unfold T_LocationProtocol_TriggeredReportStopAnswer, p_LocationProtocol_TriggeredReportStopAnswer; rewrite ?E_LocationProtocol_ResultCodes; kcbn; refold rt T_RadioIp; ksy. Qed.
#[export] Hint Resolve k_LocationProtocol_TriggeredReportStopAnswer : ksy.
Lemma k_LocationProtocol_TriggeredReportStopRequest : forall rt, reads rt T_LocationProtocol_TriggeredReportStopRequest (p_LocationProtocol_TriggeredReportStopRequest rt).
Proof. intros rt fs s; unfold T_LocationProtocol_TriggeredReportStopRequest, p_LocationProtocol_TriggeredReportStopRequest; kcbn; refold rt T_RadioIp; ksy. Qed.
#[export] Hint Resolve k_LocationProtocol_TriggeredReportStopRequest : ksy.
Lemma k_LocationProtocol : forall rt, reads rt T_LocationProtocol (p_LocationProtocol rt).
Proof. intros rt fs s; unfold T_LocationProtocol, p_LocationProtocol; rewrite ?E_LocationProtocol_LpSpecificTypes; kcbn; refold rt T_LocationProtocol_ConditionQuickGpsAnswer; refold rt T_LocationProtocol_ConditionQuickGpsRequest; refold rt T_LocationProtocol_ConditionReport; refold rt T_LocationProtocol_ConditionReportAnswer; refold rt T_LocationProtocol_ConditionReportRequest; refold rt T_LocationProtocol_ConditionReportWithRssi; refold rt T_LocationProtocol_EmergencyReport; refold rt T_LocationProtocol_EmergencyReportStopAnswer; refold rt T_LocationProtocol_EmergencyReportStopRequest; refold rt T_LocationProtocol_StandardAnswer; refold rt T_LocationProtocol_StandardAnswerWithRssi; refold rt T_LocationProtocol_StandardRequest; refold rt T_LocationProtocol_TriggeredReport; refold rt T_LocationProtocol_TriggeredReportAnswer; refold rt T_LocationProtocol_TriggeredReportRequest; refold rt T_LocationProtocol_TriggeredReportStopAnswer; refold rt T_LocationProtocol_TriggeredReportStopRequest; ksy. Qed.
#[export] Hint Resolve k_LocationProtocol : ksy.
Lemma k_RadioControlProtocol_BroadcastStatusConfigurationReply : forall rt, reads rt T_RadioControlProtocol_BroadcastStatusConfigurationReply (p_RadioControlProtocol_BroadcastStatusConfigurationReply rt).
Proof. intros rt fs s; unfold T_RadioControlProtocol_BroadcastStatusConfigurationReply, p_RadioControlProtocol_BroadcastStatusConfigurationReply; rewrite ?E_RadioControlProtocol_ReplyResults; kcbn; ksy. Qed.
#[export] Hint Resolve k_RadioControlProtocol_BroadcastStatusConfigurationReply : ksy.
Lemma k_RadioControlProtocol_BroadcastConfiguration : forall rt, reads rt T_RadioControlProtocol_BroadcastConfiguration (p_RadioControlProtocol_BroadcastConfiguration rt).
Proof. intros rt fs s; unfold T_RadioControlProtocol_BroadcastConfiguration, p_RadioControlProtocol_BroadcastConfiguration; kcbn; ksy. Qed.
#[export] Hint Resolve k_RadioControlProtocol_BroadcastConfiguration : ksy.
Lemma k_RadioControlProtocol_BroadcastStatusConfigurationRequest : forall rt, reads rt T_RadioControlProtocol_BroadcastStatusConfigurationRequest (p_RadioControlProtocol_BroadcastStatusConfigurationRequest rt).
Proof. intros rt fs s; unfold T_RadioControlProtocol_BroadcastStatusConfigurationRequest, p_RadioControlProtocol_BroadcastStatusConfigurationRequest; kcbn; refold rt T_RadioControlProtocol_BroadcastConfiguration; ksy. Qed.
#[export] Hint Resolve k_RadioControlProtocol_BroadcastStatusConfigurationRequest : ksy.
Lemma k_RadioControlProtocol_CallReply : forall rt, reads rt T_RadioControlProtocol_CallReply (p_RadioControlProtocol_CallReply rt).
Proof. intros rt fs s; unfold T_RadioControlProtocol_CallReply, p_RadioControlProtocol_CallReply; rewrite ?E_RadioControlProtocol_ReplyResults; kcbn; ksy. Qed.
#[export] Hint Resolve k_RadioControlProtocol_CallReply : ksy.
Lemma k_RadioControlProtocol_CallRequest : forall rt, reads rt T_RadioControlProtocol_CallRequest (p_RadioControlProtocol_CallRequest rt).
Proof. intros rt fs s; unfold T_RadioControlProtocol_CallRequest, p_RadioControlProtocol_CallRequest; rewrite ?E_RadioControlProtocol_CallTypes; kcbn; ksy. Qed.
#[export] Hint Resolve k_RadioControlProtocol_CallRequest : ksy.
Lemma k_RadioControlProtocol_RemoveRadioReply : forall rt, reads rt T_RadioControlProtocol_RemoveRadioReply (p_RadioControlProtocol_RemoveRadioReply rt).
Proof. intros rt fs s; unfold T_RadioControlProtocol_RemoveRadioReply, p_RadioControlProtocol_RemoveRadioReply; rewrite ?E_RadioControlProtocol_ReplyResults; kcbn; ksy. Qed.
#[export] Hint Resolve k_RadioControlProtocol_RemoveRadioReply : ksy.
Lemma k_RadioControlProtocol_RemoveRadioRequest : forall rt, reads rt T_RadioControlProtocol_RemoveRadioRequest p_RadioControlProtocol_RemoveRadioRequest.
Proof. intros rt fs s; unfold T_RadioControlProtocol_RemoveRadioRequest, p_RadioControlProtocol_RemoveRadioRequest; kcbn; ksy. Qed.
#[export] Hint Resolve k_RadioControlProtocol_RemoveRadioRequest : ksy.
Lemma k_RadioControlProtocol : forall rt, reads rt T_RadioControlProtocol (p_RadioControlProtocol rt).
Proof. intros rt fs s; unfold T_RadioControlProtocol, p_RadioControlProtocol, T_RadioControlProtocol_GenericData, p_RadioControlProtocol_GenericData, T_RadioControlProtocol_RadioIdentificationReply, p_RadioControlProtocol_RadioIdentificationReply; rewrite ?E_RadioControlProtocol_ServiceTypes; kcbn; refold rt T_RadioControlProtocol_BroadcastStatusConfigurationReply; refold rt T_RadioControlProtocol_BroadcastStatusConfigurationRequest; refold rt T_RadioControlProtocol_CallReply; refold rt T_RadioControlProtocol_CallRequest; refold rt T_RadioControlProtocol_RemoveRadioReply; refold rt T_RadioControlProtocol_RemoveRadioRequest; ksy. Qed.
#[export] Hint Resolve k_RadioControlProtocol : ksy.
Lemma k_RadioRegistrationService : forall rt, reads rt T_RadioRegistrationService (p_RadioRegistrationService rt).
Proof. intros rt fs s; unfold T_RadioRegistrationService, p_RadioRegistrationService; rewrite ?E_RadioRegistrationService_RrsTypes; kcbn; refold rt T_RadioIp; ksy. Qed.
#[export] Hint Resolve k_RadioRegistrationService : ksy.
Lemma k_TelemetryProtocol_VioExtendedStatus : forall rt, reads rt T_TelemetryProtocol_VioExtendedStatus (p_TelemetryProtocol_VioExtendedStatus rt).
Proof. intros rt fs s; unfold T_TelemetryProtocol_VioExtendedStatus, p_TelemetryProtocol_VioExtendedStatus; rewrite ?E_TelemetryProtocol_ResultTypes; kcbn; ksy. Qed.
#[export] Hint Resolve k_TelemetryProtocol_VioExtendedStatus : ksy.
Lemma k_TelemetryProtocol_ExtendedStatusReport : forall rt, reads rt T_TelemetryProtocol_ExtendedStatusReport (p_TelemetryProtocol_ExtendedStatusReport rt).
Proof. intros rt fs s; unfold T_TelemetryProtocol_ExtendedStatusReport, p_TelemetryProtocol_ExtendedStatusReport; rewrite ?E_TelemetryProtocol_CallTypes, ?E_TelemetryProtocol_PcFlagTypes; kcbn; refold rt T_RadioIp; refold rt T_TelemetryProtocol_VioExtendedStatus; ksy. Qed.
#[export] Hint Resolve k_TelemetryProtocol_ExtendedStatusReport : ksy.
Lemma k_TelemetryProtocol_RemoteControlAnswer : forall rt, reads rt T_TelemetryProtocol_RemoteControlAnswer (p_TelemetryProtocol_RemoteControlAnswer rt).
Proof. intros rt fs s; unfold T_TelemetryProtocol_RemoteControlAnswer, p_TelemetryProtocol_RemoteControlAnswer; rewrite ?E_TelemetryProtocol_CallTypes, ?E_TelemetryProtocol_ControlResultTypes, ?E_TelemetryProtocol_PcFlagTypes; kcbn; refold rt T_RadioIp; ksy. Qed.
#[export] Hint Resolve k_TelemetryProtocol_RemoteControlAnswer : ksy.
Lemma k_TelemetryProtocol_RemoteControlRequest : forall rt, reads rt T_TelemetryProtocol_RemoteControlRequest (p_TelemetryProtocol_RemoteControlRequest rt).
Proof. intros rt fs s; unfold T_TelemetryProtocol_RemoteControlRequest, p_TelemetryProtocol_RemoteControlRequest; rewrite ?E_TelemetryProtocol_CallTypes, ?E_TelemetryProtocol_OperationTypes, ?E_TelemetryProtocol_PcFlagTypes; kcbn; refold rt T_RadioIp; ksy. Qed.
#[export] Hint Resolve k_TelemetryProtocol_RemoteControlRequest : ksy.
Lemma k_TelemetryProtocol_StandardStatusReport : forall rt, reads rt T_TelemetryProtocol_StandardStatusReport (p_TelemetryProtocol_StandardStatusReport rt).
Proof. intros rt fs s; unfold T_TelemetryProtocol_StandardStatusReport, p_TelemetryProtocol_StandardStatusReport; rewrite ?E_TelemetryProtocol_CallTypes, ?E_TelemetryProtocol_PcFlagTypes, ?E_TelemetryProtocol_ResultTypes; kcbn; refold rt T_RadioIp; ksy. Qed.
#[export] Hint Resolve k_TelemetryProtocol_StandardStatusReport : ksy.
Lemma k_TelemetryProtocol_StandardStatusRequest : forall rt, reads rt T_TelemetryProtocol_StandardStatusRequest (p_TelemetryProtocol_StandardStatusRequest rt).
Proof. intros rt fs s; unfold T_TelemetryProtocol_StandardStatusRequest, p_TelemetryProtocol_StandardStatusRequest; rewrite ?E_TelemetryProtocol_CallTypes, ?E_TelemetryProtocol_PcFlagTypes; kcbn; refold rt T_RadioIp; ksy. Qed.
#[export] Hint Resolve k_TelemetryProtocol_StandardStatusRequest : ksy.
Lemma k_TelemetryProtocol : forall rt, reads rt T_TelemetryProtocol (p_TelemetryProtocol rt).
Proof. intros rt fs s; unfold T_TelemetryProtocol, p_TelemetryProtocol, I_TelemetryProtocol_specific_service; rewrite ?E_TelemetryProtocol_ServiceSpecificTypes, ?E_TelemetryProtocol_ServiceTypes; kcbn; refold rt T_TelemetryProtocol_ExtendedStatusReport; refold rt T_TelemetryProtocol_RemoteControlAnswer; refold rt T_TelemetryProtocol_RemoteControlRequest; refold rt T_TelemetryProtocol_StandardStatusReport; refold rt T_TelemetryProtocol_StandardStatusRequest; ksy. Qed.
#[export] Hint Resolve k_TelemetryProtocol : ksy.
Lemma k_TextMessageProtocol : forall rt, reads rt T_TextMessageProtocol (p_TextMessageProtocol rt).
Proof. intros rt fs s; unfold T_TextMessageProtocol, p_TextMessageProtocol, I_TextMessageProtocol_option_sum_len; rewrite ?E_TextMessageProtocol_AckFlags, ?E_TextMessageProtocol_OptionFlags, ?E_TextMessageProtocol_ResultCodes, ?E_TextMessageProtocol_ServiceTypes; kcbn; refold rt T_RadioIp; ksy. Qed.
#[export] Hint Resolve k_TextMessageProtocol : ksy.
