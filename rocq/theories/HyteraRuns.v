(** The straight-line hytera classes meet their tables. *)
From Verif Require Import PyBase Runtime Codec CodecSpec CodecProofs Spec DecSpec RuntimeProofs DecProofs Enums EnumProofs Getters HyteraModel HyteraSpec.
From Coq Require Import ZifyBool.
Ltac Zify.zify_post_hook ::= Z.div_mod_to_equations.
Open Scope string_scope.
Open Scope list_scope.
Open Scope Z_scope.

Ltac straight := intros; apply runs_obj; [lia|assumption|discriminate|seqok].
Notation runs8 p w f := (forall c, 0 <= c -> c mod 8 = 0 -> runs_at p c (KSub w f)).

Lemma r_RadioIp rt : runs8 (p_RadioIp rt) 32 (object "RadioIp" L_RadioIp).
Proof. straight. Qed.
#[export] Hint Extern 1 (runs_at (p_RadioIp _) _ _) => apply r_RadioIp; [lia|reflexivity] : runs.

Lemma r_RadioId rt : runs8 (p_RadioId rt) 32 (object "RadioId" L_RadioId).
Proof. straight. Qed.
#[export] Hint Extern 1 (runs_at (p_RadioId _) _ _) => apply r_RadioId; [lia|reflexivity] : runs.

Lemma r_Datetimestring rt : runs8 (p_Datetimestring rt) 112 (object "Datetimestring" L_Datetimestring).
Proof. straight. Qed.
#[export] Hint Extern 1 (runs_at (p_Datetimestring _) _ _) => apply r_Datetimestring; [lia|reflexivity] : runs.

Lemma r_Intervalstring rt : runs8 (p_Intervalstring rt) 64 (object "Intervalstring" L_Intervalstring).
Proof. straight. Qed.
#[export] Hint Extern 1 (runs_at (p_Intervalstring _) _ _) => apply r_Intervalstring; [lia|reflexivity] : runs.

Lemma r_Gpsdata rt : runs8 (p_Gpsdata rt) 320 (object "Gpsdata" L_Gpsdata).
Proof. straight. Qed.
#[export] Hint Extern 1 (runs_at (p_Gpsdata _) _ _) => apply r_Gpsdata; [lia|reflexivity] : runs.

Lemma r_DataDeliveryStates rt : runs8 (p_DataDeliveryStates rt) 88 (object "DataDeliveryStates" L_DataDeliveryStates).
Proof. straight. Qed.
#[export] Hint Extern 1 (runs_at (p_DataDeliveryStates _) _ _) => apply r_DataDeliveryStates; [lia|reflexivity] : runs.

Lemma r_DataTransmitProtocol_LastDataSlice rt : runs8 (p_DataTransmitProtocol_LastDataSlice rt) 64 (object "DataTransmitProtocol.LastDataSlice" L_DataTransmitProtocol_LastDataSlice).
Proof. straight. Qed.
#[export] Hint Extern 1 (runs_at (p_DataTransmitProtocol_LastDataSlice _) _ _) => apply r_DataTransmitProtocol_LastDataSlice; [lia|reflexivity] : runs.

Lemma r_DataTransmitProtocol_DataSliceAnswer rt : runs8 (p_DataTransmitProtocol_DataSliceAnswer rt) 88 (object "DataTransmitProtocol.DataSliceAnswer" L_DataTransmitProtocol_DataSliceAnswer).
Proof. straight. Qed.
#[export] Hint Extern 1 (runs_at (p_DataTransmitProtocol_DataSliceAnswer _) _ _) => apply r_DataTransmitProtocol_DataSliceAnswer; [lia|reflexivity] : runs.

Lemma r_DataTransmitProtocol_LastDataSliceAnswer rt : runs8 (p_DataTransmitProtocol_LastDataSliceAnswer rt) 72 (object "DataTransmitProtocol.LastDataSliceAnswer" L_DataTransmitProtocol_LastDataSliceAnswer).
Proof. straight. Qed.
#[export] Hint Extern 1 (runs_at (p_DataTransmitProtocol_LastDataSliceAnswer _) _ _) => apply r_DataTransmitProtocol_LastDataSliceAnswer; [lia|reflexivity] : runs.

Lemma r_DataTransmitProtocol_DtpAnswer rt : runs8 (p_DataTransmitProtocol_DtpAnswer rt) 72 (object "DataTransmitProtocol.DtpAnswer" L_DataTransmitProtocol_DtpAnswer).
Proof. straight. Qed.
#[export] Hint Extern 1 (runs_at (p_DataTransmitProtocol_DtpAnswer _) _ _) => apply r_DataTransmitProtocol_DtpAnswer; [lia|reflexivity] : runs.

Lemma r_LocationProtocol_TriggeredReportStopAnswer rt : runs8 (p_LocationProtocol_TriggeredReportStopAnswer rt) 80 (object "LocationProtocol.TriggeredReportStopAnswer" L_LocationProtocol_TriggeredReportStopAnswer).
Proof. straight. Qed.
#[export] Hint Extern 1 (runs_at (p_LocationProtocol_TriggeredReportStopAnswer _) _ _) => apply r_LocationProtocol_TriggeredReportStopAnswer; [lia|reflexivity] : runs.

Lemma r_LocationProtocol_ConditionReportRequest rt : runs8 (p_LocationProtocol_ConditionReportRequest rt) 456 (object "LocationProtocol.ConditionReportRequest" L_LocationProtocol_ConditionReportRequest).
Proof. straight. Qed.
#[export] Hint Extern 1 (runs_at (p_LocationProtocol_ConditionReportRequest _) _ _) => apply r_LocationProtocol_ConditionReportRequest; [lia|reflexivity] : runs.

Lemma r_LocationProtocol_QuickGpsPayload rt : runs8 (p_LocationProtocol_QuickGpsPayload rt) 328 (object "LocationProtocol.QuickGpsPayload" L_LocationProtocol_QuickGpsPayload).
Proof. straight. Qed.
#[export] Hint Extern 1 (runs_at (p_LocationProtocol_QuickGpsPayload _) _ _) => apply r_LocationProtocol_QuickGpsPayload; [lia|reflexivity] : runs.

Lemma r_LocationProtocol_ConditionReport rt : runs8 (p_LocationProtocol_ConditionReport rt) 384 (object "LocationProtocol.ConditionReport" L_LocationProtocol_ConditionReport).
Proof. straight. Qed.
#[export] Hint Extern 1 (runs_at (p_LocationProtocol_ConditionReport _) _ _) => apply r_LocationProtocol_ConditionReport; [lia|reflexivity] : runs.

Lemma r_LocationProtocol_EmergencyReport rt : runs8 (p_LocationProtocol_EmergencyReport rt) 360 (object "LocationProtocol.EmergencyReport" L_LocationProtocol_EmergencyReport).
Proof. straight. Qed.
#[export] Hint Extern 1 (runs_at (p_LocationProtocol_EmergencyReport _) _ _) => apply r_LocationProtocol_EmergencyReport; [lia|reflexivity] : runs.

Lemma r_LocationProtocol_TriggeredReportAnswer rt : runs8 (p_LocationProtocol_TriggeredReportAnswer rt) 80 (object "LocationProtocol.TriggeredReportAnswer" L_LocationProtocol_TriggeredReportAnswer).
Proof. straight. Qed.
#[export] Hint Extern 1 (runs_at (p_LocationProtocol_TriggeredReportAnswer _) _ _) => apply r_LocationProtocol_TriggeredReportAnswer; [lia|reflexivity] : runs.

Lemma r_LocationProtocol_StandardAnswerWithRssi rt : runs8 (p_LocationProtocol_StandardAnswerWithRssi rt) 416 (object "LocationProtocol.StandardAnswerWithRssi" L_LocationProtocol_StandardAnswerWithRssi).
Proof. straight. Qed.
#[export] Hint Extern 1 (runs_at (p_LocationProtocol_StandardAnswerWithRssi _) _ _) => apply r_LocationProtocol_StandardAnswerWithRssi; [lia|reflexivity] : runs.

Lemma r_LocationProtocol_StandardRequest rt : runs8 (p_LocationProtocol_StandardRequest rt) 64 (object "LocationProtocol.StandardRequest" L_LocationProtocol_StandardRequest).
Proof. straight. Qed.
#[export] Hint Extern 1 (runs_at (p_LocationProtocol_StandardRequest _) _ _) => apply r_LocationProtocol_StandardRequest; [lia|reflexivity] : runs.

Lemma r_LocationProtocol_TriggeredReportRequest rt : runs8 (p_LocationProtocol_TriggeredReportRequest rt) 352 (object "LocationProtocol.TriggeredReportRequest" L_LocationProtocol_TriggeredReportRequest).
Proof. straight. Qed.
#[export] Hint Extern 1 (runs_at (p_LocationProtocol_TriggeredReportRequest _) _ _) => apply r_LocationProtocol_TriggeredReportRequest; [lia|reflexivity] : runs.

Lemma r_LocationProtocol_StandardAnswer rt : runs8 (p_LocationProtocol_StandardAnswer rt) 400 (object "LocationProtocol.StandardAnswer" L_LocationProtocol_StandardAnswer).
Proof. straight. Qed.
#[export] Hint Extern 1 (runs_at (p_LocationProtocol_StandardAnswer _) _ _) => apply r_LocationProtocol_StandardAnswer; [lia|reflexivity] : runs.

Lemma r_LocationProtocol_ConditionReportAnswer rt : runs8 (p_LocationProtocol_ConditionReportAnswer rt) 88 (object "LocationProtocol.ConditionReportAnswer" L_LocationProtocol_ConditionReportAnswer).
Proof. straight. Qed.
#[export] Hint Extern 1 (runs_at (p_LocationProtocol_ConditionReportAnswer _) _ _) => apply r_LocationProtocol_ConditionReportAnswer; [lia|reflexivity] : runs.

Lemma r_LocationProtocol_EmergencyReportStopRequest rt : runs8 (p_LocationProtocol_EmergencyReportStopRequest rt) 64 (object "LocationProtocol.EmergencyReportStopRequest" L_LocationProtocol_EmergencyReportStopRequest).
Proof. straight. Qed.
#[export] Hint Extern 1 (runs_at (p_LocationProtocol_EmergencyReportStopRequest _) _ _) => apply r_LocationProtocol_EmergencyReportStopRequest; [lia|reflexivity] : runs.

Lemma r_LocationProtocol_ConditionQuickGpsAnswer rt : runs8 (p_LocationProtocol_ConditionQuickGpsAnswer rt) 88 (object "LocationProtocol.ConditionQuickGpsAnswer" L_LocationProtocol_ConditionQuickGpsAnswer).
Proof. straight. Qed.
#[export] Hint Extern 1 (runs_at (p_LocationProtocol_ConditionQuickGpsAnswer _) _ _) => apply r_LocationProtocol_ConditionQuickGpsAnswer; [lia|reflexivity] : runs.

Lemma r_LocationProtocol_TriggeredReport rt : runs8 (p_LocationProtocol_TriggeredReport rt) 448 (object "LocationProtocol.TriggeredReport" L_LocationProtocol_TriggeredReport).
Proof. straight. Qed.
#[export] Hint Extern 1 (runs_at (p_LocationProtocol_TriggeredReport _) _ _) => apply r_LocationProtocol_TriggeredReport; [lia|reflexivity] : runs.

Lemma r_LocationProtocol_ConditionReportWithRssi rt : runs8 (p_LocationProtocol_ConditionReportWithRssi rt) 416 (object "LocationProtocol.ConditionReportWithRssi" L_LocationProtocol_ConditionReportWithRssi).
Proof. straight. Qed.
#[export] Hint Extern 1 (runs_at (p_LocationProtocol_ConditionReportWithRssi _) _ _) => apply r_LocationProtocol_ConditionReportWithRssi; [lia|reflexivity] : runs.

Lemma r_LocationProtocol_EmergencyReportStopAnswer rt : runs8 (p_LocationProtocol_EmergencyReportStopAnswer rt) 80 (object "LocationProtocol.EmergencyReportStopAnswer" L_LocationProtocol_EmergencyReportStopAnswer).
Proof. straight. Qed.
#[export] Hint Extern 1 (runs_at (p_LocationProtocol_EmergencyReportStopAnswer _) _ _) => apply r_LocationProtocol_EmergencyReportStopAnswer; [lia|reflexivity] : runs.

Lemma r_LocationProtocol_TriggeredReportStopRequest rt : runs8 (p_LocationProtocol_TriggeredReportStopRequest rt) 64 (object "LocationProtocol.TriggeredReportStopRequest" L_LocationProtocol_TriggeredReportStopRequest).
Proof. straight. Qed.
#[export] Hint Extern 1 (runs_at (p_LocationProtocol_TriggeredReportStopRequest _) _ _) => apply r_LocationProtocol_TriggeredReportStopRequest; [lia|reflexivity] : runs.

Lemma r_TelemetryProtocol_StandardStatusReport rt : runs8 (p_TelemetryProtocol_StandardStatusReport rt) 96 (object "TelemetryProtocol.StandardStatusReport" L_TelemetryProtocol_StandardStatusReport).
Proof. straight. Qed.
#[export] Hint Extern 1 (runs_at (p_TelemetryProtocol_StandardStatusReport _) _ _) => apply r_TelemetryProtocol_StandardStatusReport; [lia|reflexivity] : runs.

Lemma r_TelemetryProtocol_RemoteControlAnswer rt : runs8 (p_TelemetryProtocol_RemoteControlAnswer rt) 96 (object "TelemetryProtocol.RemoteControlAnswer" L_TelemetryProtocol_RemoteControlAnswer).
Proof. straight. Qed.
#[export] Hint Extern 1 (runs_at (p_TelemetryProtocol_RemoteControlAnswer _) _ _) => apply r_TelemetryProtocol_RemoteControlAnswer; [lia|reflexivity] : runs.

Lemma r_TelemetryProtocol_RemoteControlRequest rt : runs8 (p_TelemetryProtocol_RemoteControlRequest rt) 96 (object "TelemetryProtocol.RemoteControlRequest" L_TelemetryProtocol_RemoteControlRequest).
Proof. straight. Qed.
#[export] Hint Extern 1 (runs_at (p_TelemetryProtocol_RemoteControlRequest _) _ _) => apply r_TelemetryProtocol_RemoteControlRequest; [lia|reflexivity] : runs.

Lemma r_TelemetryProtocol_StandardStatusRequest rt : runs8 (p_TelemetryProtocol_StandardStatusRequest rt) 88 (object "TelemetryProtocol.StandardStatusRequest" L_TelemetryProtocol_StandardStatusRequest).
Proof. straight. Qed.
#[export] Hint Extern 1 (runs_at (p_TelemetryProtocol_StandardStatusRequest _) _ _) => apply r_TelemetryProtocol_StandardStatusRequest; [lia|reflexivity] : runs.

Lemma r_RadioControlProtocol_BroadcastStatusConfigurationReply rt : runs8 (p_RadioControlProtocol_BroadcastStatusConfigurationReply rt) 8 (object "RadioControlProtocol.BroadcastStatusConfigurationReply" L_RadioControlProtocol_BroadcastStatusConfigurationReply).
Proof. straight. Qed.
#[export] Hint Extern 1 (runs_at (p_RadioControlProtocol_BroadcastStatusConfigurationReply _) _ _) => apply r_RadioControlProtocol_BroadcastStatusConfigurationReply; [lia|reflexivity] : runs.

Lemma r_RadioControlProtocol_BroadcastConfiguration rt : runs8 (p_RadioControlProtocol_BroadcastConfiguration rt) 16 (object "RadioControlProtocol.BroadcastConfiguration" L_RadioControlProtocol_BroadcastConfiguration).
Proof. straight. Qed.
#[export] Hint Extern 1 (runs_at (p_RadioControlProtocol_BroadcastConfiguration _) _ _) => apply r_RadioControlProtocol_BroadcastConfiguration; [lia|reflexivity] : runs.

Lemma r_RadioControlProtocol_CallRequest rt : runs8 (p_RadioControlProtocol_CallRequest rt) 40 (object "RadioControlProtocol.CallRequest" L_RadioControlProtocol_CallRequest).
Proof. straight. Qed.
#[export] Hint Extern 1 (runs_at (p_RadioControlProtocol_CallRequest _) _ _) => apply r_RadioControlProtocol_CallRequest; [lia|reflexivity] : runs.

Lemma r_RadioControlProtocol_RemoveRadioReply rt : runs8 (p_RadioControlProtocol_RemoveRadioReply rt) 8 (object "RadioControlProtocol.RemoveRadioReply" L_RadioControlProtocol_RemoveRadioReply).
Proof. straight. Qed.
#[export] Hint Extern 1 (runs_at (p_RadioControlProtocol_RemoveRadioReply _) _ _) => apply r_RadioControlProtocol_RemoveRadioReply; [lia|reflexivity] : runs.

Lemma r_RadioControlProtocol_CallReply rt : runs8 (p_RadioControlProtocol_CallReply rt) 8 (object "RadioControlProtocol.CallReply" L_RadioControlProtocol_CallReply).
Proof. straight. Qed.
#[export] Hint Extern 1 (runs_at (p_RadioControlProtocol_CallReply _) _ _) => apply r_RadioControlProtocol_CallReply; [lia|reflexivity] : runs.

Lemma r_IpSiteConnectHeartbeat_Keepalive rt : runs8 (p_IpSiteConnectHeartbeat_Keepalive rt) 8 (object "IpSiteConnectHeartbeat.Keepalive" L_IpSiteConnectHeartbeat_Keepalive).
Proof. straight. Qed.
#[export] Hint Extern 1 (runs_at (p_IpSiteConnectHeartbeat_Keepalive _) _ _) => apply r_IpSiteConnectHeartbeat_Keepalive; [lia|reflexivity] : runs.

Lemma r_IpSiteConnectHeartbeat_PingPong rt : runs8 (p_IpSiteConnectHeartbeat_PingPong rt) 160 (object "IpSiteConnectHeartbeat.PingPong" L_IpSiteConnectHeartbeat_PingPong).
Proof. straight. Qed.
#[export] Hint Extern 1 (runs_at (p_IpSiteConnectHeartbeat_PingPong _) _ _) => apply r_IpSiteConnectHeartbeat_PingPong; [lia|reflexivity] : runs.

Lemma r_RealTimeTransportProtocol_HeaderExtension rt : runs8 (p_RealTimeTransportProtocol_HeaderExtension rt) 144 (object "RealTimeTransportProtocol.HeaderExtension" L_RealTimeTransportProtocol_HeaderExtension).
Proof. straight. Qed.
#[export] Hint Extern 1 (runs_at (p_RealTimeTransportProtocol_HeaderExtension _) _ _) => apply r_RealTimeTransportProtocol_HeaderExtension; [lia|reflexivity] : runs.
