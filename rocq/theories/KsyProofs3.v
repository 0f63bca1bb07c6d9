(** The parsers of the model are their .ksy definitions, interpreted: hytera transport protocols. *)
From Verif Require Import PyBase Runtime Codec Enums EtsiModel HomebrewModel HyteraModel MotorolaModel Ksy KsyDefs KsyTac KsyProofs2.
Open Scope string_scope.
Open Scope list_scope.
Open Scope Z_scope.
Lemma k_HyteraDmrApplicationProtocol : forall rt, reads rt T_HyteraDmrApplicationProtocol (p_HyteraDmrApplicationProtocol rt).
Proof. intros rt fs s; unfold T_HyteraDmrApplicationProtocol, p_HyteraDmrApplicationProtocol; rewrite ?E_HyteraDmrApplicationProtocol_MessageHeaderTypes; kcbn; refold rt T_DataDeliveryStates; refold rt T_DataTransmitProtocol; refold rt T_LocationProtocol; refold rt T_RadioControlProtocol; refold rt T_RadioRegistrationService; refold rt T_TelemetryProtocol; refold rt T_TextMessageProtocol; ksy. Qed.
#[export] Hint Resolve k_HyteraDmrApplicationProtocol : ksy.
Lemma k_HyteraRadioNetworkProtocol : forall rt, reads rt T_HyteraRadioNetworkProtocol (p_HyteraRadioNetworkProtocol rt).
Proof. intros rt fs s; unfold T_HyteraRadioNetworkProtocol, p_HyteraRadioNetworkProtocol; rewrite ?E_HyteraRadioNetworkProtocol_Opcodes; kcbn; refold rt T_HyteraDmrApplicationProtocol; ksy. Qed.
#[export] Hint Resolve k_HyteraRadioNetworkProtocol : ksy.
Lemma k_HyteraSimpleTransportReliabilityProtocol_Option : forall rt, reads rt T_HyteraSimpleTransportReliabilityProtocol_Option (p_HyteraSimpleTransportReliabilityProtocol_Option rt).
Proof. intros rt fs s; unfold T_HyteraSimpleTransportReliabilityProtocol_Option, p_HyteraSimpleTransportReliabilityProtocol_Option; rewrite ?E_HyteraSimpleTransportReliabilityProtocol_OptionCommands; kcbn; ksy. Qed.
#[export] Hint Resolve k_HyteraSimpleTransportReliabilityProtocol_Option : ksy.
Lemma k_HyteraSimpleTransportReliabilityProtocol : forall rt, reads rt T_HyteraSimpleTransportReliabilityProtocol (p_HyteraSimpleTransportReliabilityProtocol rt).
Proof. intros rt fs s; unfold T_HyteraSimpleTransportReliabilityProtocol, p_HyteraSimpleTransportReliabilityProtocol, T_HyteraSimpleTransportReliabilityProtocol_Option, p_HyteraSimpleTransportReliabilityProtocol_Option; rewrite ?E_HyteraSimpleTransportReliabilityProtocol_OptionCommands; kcbn; refold rt T_HyteraDmrApplicationProtocol; ksy. Qed.
#[export] Hint Resolve k_HyteraSimpleTransportReliabilityProtocol : ksy.
Lemma k_IpSiteConnectHeartbeat_Keepalive : forall rt, reads rt T_IpSiteConnectHeartbeat_Keepalive (p_IpSiteConnectHeartbeat_Keepalive rt).
Proof. intros rt fs s; unfold T_IpSiteConnectHeartbeat_Keepalive, p_IpSiteConnectHeartbeat_Keepalive; kcbn; ksy. Qed.
#[export] Hint Resolve k_IpSiteConnectHeartbeat_Keepalive : ksy.
Lemma k_IpSiteConnectHeartbeat_PingPong : forall rt, reads rt T_IpSiteConnectHeartbeat_PingPong (p_IpSiteConnectHeartbeat_PingPong rt).
Proof. intros rt fs s; unfold T_IpSiteConnectHeartbeat_PingPong, p_IpSiteConnectHeartbeat_PingPong; kcbn; ksy. Qed.
#[export] Hint Resolve k_IpSiteConnectHeartbeat_PingPong : ksy.
Lemma k_IpSiteConnectHeartbeat_Unknown : forall rt, reads rt T_IpSiteConnectHeartbeat_Unknown (p_IpSiteConnectHeartbeat_Unknown rt).
Proof. intros rt fs s; unfold T_IpSiteConnectHeartbeat_Unknown, p_IpSiteConnectHeartbeat_Unknown; kcbn; ksy. Qed.
#[export] Hint Resolve k_IpSiteConnectHeartbeat_Unknown : ksy.
Lemma k_IpSiteConnectHeartbeat : forall rt, reads rt T_IpSiteConnectHeartbeat (p_IpSiteConnectHeartbeat rt).
Proof. intros rt fs s; unfold T_IpSiteConnectHeartbeat, p_IpSiteConnectHeartbeat; kcbn; refold rt T_IpSiteConnectHeartbeat_Keepalive; refold rt T_IpSiteConnectHeartbeat_PingPong; refold rt T_IpSiteConnectHeartbeat_Unknown; ksy. Qed.
#[export] Hint Resolve k_IpSiteConnectHeartbeat : ksy.
Lemma k_IpSiteConnectProtocol : forall rt, reads rt T_IpSiteConnectProtocol (p_IpSiteConnectProtocol rt).
Proof. intros rt fs s; unfold T_IpSiteConnectProtocol, p_IpSiteConnectProtocol; rewrite ?E_IpSiteConnectProtocol_CallTypes, ?E_IpSiteConnectProtocol_FrameTypes, ?E_IpSiteConnectProtocol_PacketTypes, ?E_IpSiteConnectProtocol_SlotTypes, ?E_IpSiteConnectProtocol_Timeslots; kcbn; ksy. Qed.
#[export] Hint Resolve k_IpSiteConnectProtocol : ksy.
Lemma k_RadioId : forall rt, reads rt T_RadioId (p_RadioId rt).
Proof. intros rt fs s; unfold T_RadioId, p_RadioId; kcbn; ksy. Qed.
#[export] Hint Resolve k_RadioId : ksy.
Lemma k_RealTimeTransportProtocol_FixedHeader : forall rt, reads rt T_RealTimeTransportProtocol_FixedHeader (p_RealTimeTransportProtocol_FixedHeader rt).
Proof. intros rt fs s; unfold T_RealTimeTransportProtocol_FixedHeader, p_RealTimeTransportProtocol_FixedHeader; kcbn; ksy. Qed.
#[export] Hint Resolve k_RealTimeTransportProtocol_FixedHeader : ksy.
Lemma k_RealTimeTransportProtocol_HeaderExtension : forall rt, reads rt T_RealTimeTransportProtocol_HeaderExtension (p_RealTimeTransportProtocol_HeaderExtension rt).
Proof. intros rt fs s; unfold T_RealTimeTransportProtocol_HeaderExtension, p_RealTimeTransportProtocol_HeaderExtension; rewrite ?E_RealTimeTransportProtocol_CallTypes; kcbn; refold rt T_RadioId; ksy. Qed.
#[export] Hint Resolve k_RealTimeTransportProtocol_HeaderExtension : ksy.
Lemma k_RealTimeTransportProtocol : forall rt, reads rt T_RealTimeTransportProtocol (p_RealTimeTransportProtocol rt).
Proof. intros rt fs s; unfold T_RealTimeTransportProtocol, p_RealTimeTransportProtocol, T_RealTimeTransportProtocol_FixedHeader, p_RealTimeTransportProtocol_FixedHeader, I_RealTimeTransportProtocol_len_padding, I_RealTimeTransportProtocol_len_padding_if_exists; kcbn; refold rt T_RealTimeTransportProtocol_HeaderExtension; ksy. Qed.
#[export] Hint Resolve k_RealTimeTransportProtocol : ksy.
