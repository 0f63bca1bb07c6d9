(** The parsers of the model are their .ksy definitions, interpreted: etsi and homebrew. *)
From Verif Require Import PyBase Runtime Codec Enums EtsiModel HomebrewModel HyteraModel MotorolaModel Ksy KsyDefs KsyTac.
Open Scope string_scope.
Open Scope list_scope.
Open Scope Z_scope.
Lemma k_DmrCsbk_ServiceOptions : forall rt, reads rt T_DmrCsbk_ServiceOptions p_DmrCsbk_ServiceOptions.
Proof. intros rt fs s; unfold T_DmrCsbk_ServiceOptions, p_DmrCsbk_ServiceOptions; kcbn; ksy. Qed.
#[export] Hint Resolve k_DmrCsbk_ServiceOptions : ksy.
Lemma k_DmrCsbk_PreambleData : forall rt, reads rt T_DmrCsbk_PreambleData p_DmrCsbk_PreambleData.
Proof. intros rt fs s; unfold T_DmrCsbk_PreambleData, p_DmrCsbk_PreambleData; rewrite ?E_DmrCsbk_CsbkDataOrCsbk, ?E_DmrCsbk_CsbkGroupOrIndividual; kcbn; ksy. Qed.
#[export] Hint Resolve k_DmrCsbk_PreambleData : ksy.
Lemma k_DmrCsbk_BsOutboundActivationData : forall rt, reads rt T_DmrCsbk_BsOutboundActivationData p_DmrCsbk_BsOutboundActivationData.
Proof. intros rt fs s; unfold T_DmrCsbk_BsOutboundActivationData, p_DmrCsbk_BsOutboundActivationData; kcbn; ksy. Qed.
#[export] Hint Resolve k_DmrCsbk_BsOutboundActivationData : ksy.
Lemma k_DmrCsbk_UnitToUnitVoiceRequestData : forall rt, reads rt T_DmrCsbk_UnitToUnitVoiceRequestData p_DmrCsbk_UnitToUnitVoiceRequestData.
Proof. intros rt fs s; unfold T_DmrCsbk_UnitToUnitVoiceRequestData, p_DmrCsbk_UnitToUnitVoiceRequestData; kcbn; refold rt T_DmrCsbk_ServiceOptions; ksy. Qed.
#[export] Hint Resolve k_DmrCsbk_UnitToUnitVoiceRequestData : ksy.
Lemma k_DmrCsbk_UnitToUnitVoiceAnswerData : forall rt, reads rt T_DmrCsbk_UnitToUnitVoiceAnswerData p_DmrCsbk_UnitToUnitVoiceAnswerData.
Proof. intros rt fs s; unfold T_DmrCsbk_UnitToUnitVoiceAnswerData, p_DmrCsbk_UnitToUnitVoiceAnswerData; rewrite ?E_DmrCsbk_AnswerResponse; kcbn; refold rt T_DmrCsbk_ServiceOptions; ksy. Qed.
#[export] Hint Resolve k_DmrCsbk_UnitToUnitVoiceAnswerData : ksy.
Lemma k_DmrCsbk_NegativeAckResponseData : forall rt, reads rt T_DmrCsbk_NegativeAckResponseData p_DmrCsbk_NegativeAckResponseData.
Proof. intros rt fs s; unfold T_DmrCsbk_NegativeAckResponseData, p_DmrCsbk_NegativeAckResponseData; kcbn; ksy. Qed.
#[export] Hint Resolve k_DmrCsbk_NegativeAckResponseData : ksy.
Lemma k_DmrCsbk_ChannelTimingData : forall rt, reads rt T_DmrCsbk_ChannelTimingData p_DmrCsbk_ChannelTimingData.
Proof. intros rt fs s; unfold T_DmrCsbk_ChannelTimingData, p_DmrCsbk_ChannelTimingData; kcbn; ksy. Qed.
#[export] Hint Resolve k_DmrCsbk_ChannelTimingData : ksy.
Lemma k_DmrCsbk : forall rt, reads rt T_DmrCsbk p_DmrCsbk.
Proof. intros rt fs s; unfold T_DmrCsbk, p_DmrCsbk; rewrite ?E_DmrCsbk_CsbkoTypes; kcbn; refold rt T_DmrCsbk_BsOutboundActivationData; refold rt T_DmrCsbk_ChannelTimingData; refold rt T_DmrCsbk_NegativeAckResponseData; refold rt T_DmrCsbk_PreambleData; refold rt T_DmrCsbk_UnitToUnitVoiceAnswerData; refold rt T_DmrCsbk_UnitToUnitVoiceRequestData; ksy. Qed.
#[export] Hint Resolve k_DmrCsbk : ksy.
Lemma k_DmrData_Rate34Confirmed : forall rt, reads rt T_DmrData_Rate34Confirmed (p_DmrData_Rate34Confirmed rt).
Proof. intros rt fs s; unfold T_DmrData_Rate34Confirmed, p_DmrData_Rate34Confirmed; kcbn; ksy. Qed.
#[export] Hint Resolve k_DmrData_Rate34Confirmed : ksy.
Lemma k_DmrData_Rate34Unconfirmed : forall rt, reads rt T_DmrData_Rate34Unconfirmed (p_DmrData_Rate34Unconfirmed rt).
Proof. intros rt fs s; unfold T_DmrData_Rate34Unconfirmed, p_DmrData_Rate34Unconfirmed; kcbn; ksy. Qed.
#[export] Hint Resolve k_DmrData_Rate34Unconfirmed : ksy.
Lemma k_DmrData_Rate34LastBlockConfirmed : forall rt, reads rt T_DmrData_Rate34LastBlockConfirmed (p_DmrData_Rate34LastBlockConfirmed rt).
Proof. intros rt fs s; unfold T_DmrData_Rate34LastBlockConfirmed, p_DmrData_Rate34LastBlockConfirmed; kcbn; ksy. Qed.
#[export] Hint Resolve k_DmrData_Rate34LastBlockConfirmed : ksy.
Lemma k_DmrData_Rate34LastBlockUnconfirmed : forall rt, reads rt T_DmrData_Rate34LastBlockUnconfirmed (p_DmrData_Rate34LastBlockUnconfirmed rt).
Proof. intros rt fs s; unfold T_DmrData_Rate34LastBlockUnconfirmed, p_DmrData_Rate34LastBlockUnconfirmed; kcbn; ksy. Qed.
#[export] Hint Resolve k_DmrData_Rate34LastBlockUnconfirmed : ksy.
Lemma k_DmrData_Rate12Confirmed : forall rt, reads rt T_DmrData_Rate12Confirmed (p_DmrData_Rate12Confirmed rt).
Proof. intros rt fs s; unfold T_DmrData_Rate12Confirmed, p_DmrData_Rate12Confirmed; kcbn; ksy. Qed.
#[export] Hint Resolve k_DmrData_Rate12Confirmed : ksy.
Lemma k_DmrData_Rate12Unconfirmed : forall rt, reads rt T_DmrData_Rate12Unconfirmed (p_DmrData_Rate12Unconfirmed rt).
Proof. intros rt fs s; unfold T_DmrData_Rate12Unconfirmed, p_DmrData_Rate12Unconfirmed; kcbn; ksy. Qed.
#[export] Hint Resolve k_DmrData_Rate12Unconfirmed : ksy.
Lemma k_DmrData_Rate12LastBlockConfirmed : forall rt, reads rt T_DmrData_Rate12LastBlockConfirmed (p_DmrData_Rate12LastBlockConfirmed rt).
Proof. intros rt fs s; unfold T_DmrData_Rate12LastBlockConfirmed, p_DmrData_Rate12LastBlockConfirmed; kcbn; ksy. Qed.
#[export] Hint Resolve k_DmrData_Rate12LastBlockConfirmed : ksy.
Lemma k_DmrData_Rate12LastBlockUnconfirmed : forall rt, reads rt T_DmrData_Rate12LastBlockUnconfirmed (p_DmrData_Rate12LastBlockUnconfirmed rt).
Proof. intros rt fs s; unfold T_DmrData_Rate12LastBlockUnconfirmed, p_DmrData_Rate12LastBlockUnconfirmed; kcbn; ksy. Qed.
#[export] Hint Resolve k_DmrData_Rate12LastBlockUnconfirmed : ksy.
Lemma k_DmrData_UdtLastBlock : forall rt, reads rt T_DmrData_UdtLastBlock (p_DmrData_UdtLastBlock rt).
Proof. intros rt fs s; unfold T_DmrData_UdtLastBlock, p_DmrData_UdtLastBlock; kcbn; ksy. Qed.
#[export] Hint Resolve k_DmrData_UdtLastBlock : ksy.
Lemma k_DmrData_Rate1Confirmed : forall rt, reads rt T_DmrData_Rate1Confirmed (p_DmrData_Rate1Confirmed rt).
Proof. intros rt fs s; unfold T_DmrData_Rate1Confirmed, p_DmrData_Rate1Confirmed; kcbn; ksy. Qed.
#[export] Hint Resolve k_DmrData_Rate1Confirmed : ksy.
Lemma k_DmrData_Rate1Unconfirmed : forall rt, reads rt T_DmrData_Rate1Unconfirmed (p_DmrData_Rate1Unconfirmed rt).
Proof. intros rt fs s; unfold T_DmrData_Rate1Unconfirmed, p_DmrData_Rate1Unconfirmed; kcbn; ksy. Qed.
#[export] Hint Resolve k_DmrData_Rate1Unconfirmed : ksy.
Lemma k_DmrData_Rate1LastBlockConfirmed : forall rt, reads rt T_DmrData_Rate1LastBlockConfirmed (p_DmrData_Rate1LastBlockConfirmed rt).
Proof. intros rt fs s; unfold T_DmrData_Rate1LastBlockConfirmed, p_DmrData_Rate1LastBlockConfirmed; kcbn; ksy. Qed.
#[export] Hint Resolve k_DmrData_Rate1LastBlockConfirmed : ksy.
Lemma k_DmrData_Rate1LastBlockUnconfirmed : forall rt, reads rt T_DmrData_Rate1LastBlockUnconfirmed (p_DmrData_Rate1LastBlockUnconfirmed rt).
Proof. intros rt fs s; unfold T_DmrData_Rate1LastBlockUnconfirmed, p_DmrData_Rate1LastBlockUnconfirmed; kcbn; ksy. Qed.
#[export] Hint Resolve k_DmrData_Rate1LastBlockUnconfirmed : ksy.
Lemma k_DmrData : forall rt, reads rt T_DmrData p_DmrData.
Proof. intros rt fs s; unfold T_DmrData, p_DmrData; kcbn; ksy. Qed.
#[export] Hint Resolve k_DmrData : ksy.
Lemma k_DmrDataHeader_DataHeaderUndefined : forall rt, reads rt T_DmrDataHeader_DataHeaderUndefined (p_DmrDataHeader_DataHeaderUndefined rt).
Proof. intros rt fs s; unfold T_DmrDataHeader_DataHeaderUndefined, p_DmrDataHeader_DataHeaderUndefined; kcbn; ksy. Qed.
#[export] Hint Resolve k_DmrDataHeader_DataHeaderUndefined : ksy.
Lemma k_DmrDataHeader_DataHeaderProprietary : forall rt, reads rt T_DmrDataHeader_DataHeaderProprietary (p_DmrDataHeader_DataHeaderProprietary rt).
Proof. intros rt fs s; unfold T_DmrDataHeader_DataHeaderProprietary, p_DmrDataHeader_DataHeaderProprietary; rewrite ?E_DmrDataHeader_DataPacketFormats, ?E_DmrDataHeader_SapIdentifiers; kcbn; ksy. Qed.
#[export] Hint Resolve k_DmrDataHeader_DataHeaderProprietary : ksy.
Lemma k_DmrDataHeader_DataHeaderUdt : forall rt, reads rt T_DmrDataHeader_DataHeaderUdt (p_DmrDataHeader_DataHeaderUdt rt).
Proof. intros rt fs s; unfold T_DmrDataHeader_DataHeaderUdt, p_DmrDataHeader_DataHeaderUdt; rewrite ?E_DmrDataHeader_CsbkMbcUdtOpcodes, ?E_DmrDataHeader_DataPacketFormats, ?E_DmrDataHeader_SapIdentifiers, ?E_DmrDataHeader_UdtFormats; kcbn; ksy. Qed.
#[export] Hint Resolve k_DmrDataHeader_DataHeaderUdt : ksy.
Lemma k_DmrDataHeader_DataHeaderResponse : forall rt, reads rt T_DmrDataHeader_DataHeaderResponse (p_DmrDataHeader_DataHeaderResponse rt).
Proof. intros rt fs s; unfold T_DmrDataHeader_DataHeaderResponse, p_DmrDataHeader_DataHeaderResponse; rewrite ?E_DmrDataHeader_DataPacketFormats, ?E_DmrDataHeader_ResponsePacketClasses, ?E_DmrDataHeader_SapIdentifiers; kcbn; ksy. Qed.
#[export] Hint Resolve k_DmrDataHeader_DataHeaderResponse : ksy.
Lemma k_DmrDataHeader_DataHeaderUnconfirmed : forall rt, reads rt T_DmrDataHeader_DataHeaderUnconfirmed (p_DmrDataHeader_DataHeaderUnconfirmed rt).
Proof. intros rt fs s; unfold T_DmrDataHeader_DataHeaderUnconfirmed, p_DmrDataHeader_DataHeaderUnconfirmed; rewrite ?E_DmrDataHeader_DataPacketFormats, ?E_DmrDataHeader_SapIdentifiers; kcbn; ksy. Qed.
#[export] Hint Resolve k_DmrDataHeader_DataHeaderUnconfirmed : ksy.
Lemma k_DmrDataHeader_DataHeaderConfirmed : forall rt, reads rt T_DmrDataHeader_DataHeaderConfirmed (p_DmrDataHeader_DataHeaderConfirmed rt).
Proof. intros rt fs s; unfold T_DmrDataHeader_DataHeaderConfirmed, p_DmrDataHeader_DataHeaderConfirmed; rewrite ?E_DmrDataHeader_DataPacketFormats, ?E_DmrDataHeader_SapIdentifiers; kcbn; ksy. Qed.
#[export] Hint Resolve k_DmrDataHeader_DataHeaderConfirmed : ksy.
Lemma k_DmrDataHeader_DataHeaderShortRaw : forall rt, reads rt T_DmrDataHeader_DataHeaderShortRaw (p_DmrDataHeader_DataHeaderShortRaw rt).
Proof. intros rt fs s; unfold T_DmrDataHeader_DataHeaderShortRaw, p_DmrDataHeader_DataHeaderShortRaw; rewrite ?E_DmrDataHeader_DataPacketFormats, ?E_DmrDataHeader_SapIdentifiers; kcbn; ksy. Qed.
#[export] Hint Resolve k_DmrDataHeader_DataHeaderShortRaw : ksy.
Lemma k_DmrDataHeader_DataHeaderShortDefined : forall rt, reads rt T_DmrDataHeader_DataHeaderShortDefined (p_DmrDataHeader_DataHeaderShortDefined rt).
Proof. intros rt fs s; unfold T_DmrDataHeader_DataHeaderShortDefined, p_DmrDataHeader_DataHeaderShortDefined; rewrite ?E_DmrDataHeader_DataPacketFormats, ?E_DmrDataHeader_DefinedDataFormats, ?E_DmrDataHeader_SapIdentifiers; kcbn; ksy. Qed.
#[export] Hint Resolve k_DmrDataHeader_DataHeaderShortDefined : ksy.
Lemma k_DmrDataHeader_DataHeaderShortStatusPrecoded : forall rt, reads rt T_DmrDataHeader_DataHeaderShortStatusPrecoded (p_DmrDataHeader_DataHeaderShortStatusPrecoded rt).
Proof. intros rt fs s; unfold T_DmrDataHeader_DataHeaderShortStatusPrecoded, p_DmrDataHeader_DataHeaderShortStatusPrecoded; rewrite ?E_DmrDataHeader_DataPacketFormats, ?E_DmrDataHeader_SapIdentifiers; kcbn; ksy. Qed.
#[export] Hint Resolve k_DmrDataHeader_DataHeaderShortStatusPrecoded : ksy.
Lemma k_DmrDataHeader : forall rt, reads rt T_DmrDataHeader p_DmrDataHeader.
Proof. intros rt fs s; unfold T_DmrDataHeader, p_DmrDataHeader; rewrite ?E_DmrDataHeader_DataPacketFormats; kcbn; ksy. Qed.
#[export] Hint Resolve k_DmrDataHeader : ksy.
Lemma k_DmrIpUdp_UdpIpv4CompressedHeader : forall rt, reads rt T_DmrIpUdp_UdpIpv4CompressedHeader (p_DmrIpUdp_UdpIpv4CompressedHeader rt).
Proof. intros rt fs s; unfold T_DmrIpUdp_UdpIpv4CompressedHeader, p_DmrIpUdp_UdpIpv4CompressedHeader; rewrite ?E_DmrIpUdp_DestinationIpAddressIds, ?E_DmrIpUdp_SourceIpAddressIds, ?E_DmrIpUdp_UdpPortIds; kcbn; ksy. Qed.
#[export] Hint Resolve k_DmrIpUdp_UdpIpv4CompressedHeader : ksy.
Lemma k_DmrIpUdp : forall rt, reads rt T_DmrIpUdp p_DmrIpUdp.
Proof. intros rt fs s; unfold T_DmrIpUdp, p_DmrIpUdp; kcbn; ksy. Qed.
#[export] Hint Resolve k_DmrIpUdp : ksy.
Lemma k_FullLinkControl_GroupVoiceChannelUser : forall rt, reads rt T_FullLinkControl_GroupVoiceChannelUser p_FullLinkControl_GroupVoiceChannelUser.
Proof. intros rt fs s; unfold T_FullLinkControl_GroupVoiceChannelUser, p_FullLinkControl_GroupVoiceChannelUser; kcbn; ksy. Qed.
#[export] Hint Resolve k_FullLinkControl_GroupVoiceChannelUser : ksy.
Lemma k_FullLinkControl_UnitToUnitVoiceChannelUser : forall rt, reads rt T_FullLinkControl_UnitToUnitVoiceChannelUser p_FullLinkControl_UnitToUnitVoiceChannelUser.
Proof. intros rt fs s; unfold T_FullLinkControl_UnitToUnitVoiceChannelUser, p_FullLinkControl_UnitToUnitVoiceChannelUser; kcbn; ksy. Qed.
#[export] Hint Resolve k_FullLinkControl_UnitToUnitVoiceChannelUser : ksy.
Lemma k_FullLinkControl_GpsInfoLcPdu : forall rt, reads rt T_FullLinkControl_GpsInfoLcPdu p_FullLinkControl_GpsInfoLcPdu.
Proof. intros rt fs s; unfold T_FullLinkControl_GpsInfoLcPdu, p_FullLinkControl_GpsInfoLcPdu; rewrite ?E_FullLinkControl_PositionErrors; kcbn; ksy. Qed.
#[export] Hint Resolve k_FullLinkControl_GpsInfoLcPdu : ksy.
Lemma k_FullLinkControl_TalkerAliasHeader : forall rt, reads rt T_FullLinkControl_TalkerAliasHeader p_FullLinkControl_TalkerAliasHeader.
Proof. intros rt fs s; unfold T_FullLinkControl_TalkerAliasHeader, p_FullLinkControl_TalkerAliasHeader; rewrite ?E_FullLinkControl_TalkerDataFormats; kcbn; ksy. Qed.
#[export] Hint Resolve k_FullLinkControl_TalkerAliasHeader : ksy.
Lemma k_FullLinkControl_TalkerAliasContinuation : forall rt, reads rt T_FullLinkControl_TalkerAliasContinuation p_FullLinkControl_TalkerAliasContinuation.
Proof. intros rt fs s; unfold T_FullLinkControl_TalkerAliasContinuation, p_FullLinkControl_TalkerAliasContinuation; kcbn; ksy. Qed.
#[export] Hint Resolve k_FullLinkControl_TalkerAliasContinuation : ksy.
Lemma k_FullLinkControl : forall rt, reads rt T_FullLinkControl (p_FullLinkControl rt).
Proof. intros rt fs s; unfold T_FullLinkControl, p_FullLinkControl; rewrite ?E_FullLinkControl_FeatureSetIds, ?E_FullLinkControl_Flcos; kcbn; refold rt T_FullLinkControl_GpsInfoLcPdu; refold rt T_FullLinkControl_GroupVoiceChannelUser; refold rt T_FullLinkControl_TalkerAliasContinuation; refold rt T_FullLinkControl_TalkerAliasHeader; refold rt T_FullLinkControl_UnitToUnitVoiceChannelUser; ksy. Qed.
#[export] Hint Resolve k_FullLinkControl : ksy.
Lemma k_Homebrew2015_TypeDmrData : forall rt, reads rt T_Homebrew2015_TypeDmrData (p_Homebrew2015_TypeDmrData rt).
Proof. intros rt fs s; unfold T_Homebrew2015_TypeDmrData, p_Homebrew2015_TypeDmrData; rewrite ?E_Homebrew2015_CallTypes, ?E_Homebrew2015_FrameTypes, ?E_Homebrew2015_Timeslots; kcbn; ksy. Qed.
#[export] Hint Resolve k_Homebrew2015_TypeDmrData : ksy.
Lemma k_Homebrew2015_TypeRepeaterLoginRequest : forall rt, reads rt T_Homebrew2015_TypeRepeaterLoginRequest (p_Homebrew2015_TypeRepeaterLoginRequest rt).
Proof. intros rt fs s; unfold T_Homebrew2015_TypeRepeaterLoginRequest, p_Homebrew2015_TypeRepeaterLoginRequest; kcbn; ksy. Qed.
#[export] Hint Resolve k_Homebrew2015_TypeRepeaterLoginRequest : ksy.
Lemma k_Homebrew2015_TypeMasterPing : forall rt, reads rt T_Homebrew2015_TypeMasterPing (p_Homebrew2015_TypeMasterPing rt).
Proof. intros rt fs s; unfold T_Homebrew2015_TypeMasterPing, p_Homebrew2015_TypeMasterPing; kcbn; ksy. Qed.
#[export] Hint Resolve k_Homebrew2015_TypeMasterPing : ksy.
Lemma k_Homebrew2015_TypeRepeaterPong : forall rt, reads rt T_Homebrew2015_TypeRepeaterPong (p_Homebrew2015_TypeRepeaterPong rt).
Proof. intros rt fs s; unfold T_Homebrew2015_TypeRepeaterPong, p_Homebrew2015_TypeRepeaterPong; kcbn; ksy. Qed.
#[export] Hint Resolve k_Homebrew2015_TypeRepeaterPong : ksy.
Lemma k_Homebrew2015_TypeMasterClosing : forall rt, reads rt T_Homebrew2015_TypeMasterClosing (p_Homebrew2015_TypeMasterClosing rt).
Proof. intros rt fs s; unfold T_Homebrew2015_TypeMasterClosing, p_Homebrew2015_TypeMasterClosing; kcbn; ksy. Qed.
#[export] Hint Resolve k_Homebrew2015_TypeMasterClosing : ksy.
Lemma k_Homebrew2015_TypeMasterNotAccept : forall rt, reads rt T_Homebrew2015_TypeMasterNotAccept (p_Homebrew2015_TypeMasterNotAccept rt).
Proof. intros rt fs s; unfold T_Homebrew2015_TypeMasterNotAccept, p_Homebrew2015_TypeMasterNotAccept; kcbn; ksy. Qed.
#[export] Hint Resolve k_Homebrew2015_TypeMasterNotAccept : ksy.
Lemma k_Homebrew2015_TypeMasterRepeaterAck : forall rt, reads rt T_Homebrew2015_TypeMasterRepeaterAck (p_Homebrew2015_TypeMasterRepeaterAck rt).
Proof. intros rt fs s; unfold T_Homebrew2015_TypeMasterRepeaterAck, p_Homebrew2015_TypeMasterRepeaterAck; kcbn; ksy. Qed.
#[export] Hint Resolve k_Homebrew2015_TypeMasterRepeaterAck : ksy.
Lemma k_Homebrew2015_TypeRepeaterLoginResponse : forall rt, reads rt T_Homebrew2015_TypeRepeaterLoginResponse (p_Homebrew2015_TypeRepeaterLoginResponse rt).
Proof. intros rt fs s; unfold T_Homebrew2015_TypeRepeaterLoginResponse, p_Homebrew2015_TypeRepeaterLoginResponse; kcbn; ksy. Qed.
#[export] Hint Resolve k_Homebrew2015_TypeRepeaterLoginResponse : ksy.
Lemma k_Homebrew2015_TypeRepeaterClosing : forall rt, reads rt T_Homebrew2015_TypeRepeaterClosing (p_Homebrew2015_TypeRepeaterClosing rt).
Proof. intros rt fs s; unfold T_Homebrew2015_TypeRepeaterClosing, p_Homebrew2015_TypeRepeaterClosing; kcbn; ksy. Qed.
#[export] Hint Resolve k_Homebrew2015_TypeRepeaterClosing : ksy.
Lemma k_Homebrew2015_TypeRepeaterConfiguration : forall rt, reads rt T_Homebrew2015_TypeRepeaterConfiguration (p_Homebrew2015_TypeRepeaterConfiguration rt).
Proof. intros rt fs s; unfold T_Homebrew2015_TypeRepeaterConfiguration, p_Homebrew2015_TypeRepeaterConfiguration; kcbn; ksy. Qed.
#[export] Hint Resolve k_Homebrew2015_TypeRepeaterConfiguration : ksy.
Lemma k_Homebrew2015_TypeRepeaterOptions : forall rt, reads rt T_Homebrew2015_TypeRepeaterOptions (p_Homebrew2015_TypeRepeaterOptions rt).
Proof. intros rt fs s; unfold T_Homebrew2015_TypeRepeaterOptions, p_Homebrew2015_TypeRepeaterOptions; kcbn; ksy. Qed.
#[export] Hint Resolve k_Homebrew2015_TypeRepeaterOptions : ksy.
Lemma k_Homebrew2015 : forall rt, reads0 rt T_Homebrew2015 (p_Homebrew2015 rt).
Proof. intros rt s; unfold T_Homebrew2015, p_Homebrew2015, T_Homebrew2015_TypeRepeaterConfigurationOrClosing, p_Homebrew2015_TypeRepeaterConfigurationOrClosing, I_Homebrew2015_fifth_letter; kcbn; refold rt T_Homebrew2015_TypeDmrData; refold rt T_Homebrew2015_TypeMasterClosing; refold rt T_Homebrew2015_TypeMasterNotAccept; refold rt T_Homebrew2015_TypeMasterPing; refold rt T_Homebrew2015_TypeMasterRepeaterAck; refold rt T_Homebrew2015_TypeRepeaterClosing; refold rt T_Homebrew2015_TypeRepeaterConfiguration; refold rt T_Homebrew2015_TypeRepeaterLoginRequest; refold rt T_Homebrew2015_TypeRepeaterLoginResponse; refold rt T_Homebrew2015_TypeRepeaterPong; ksy. Qed.
#[export] Hint Resolve k_Homebrew2015 : ksy.
Lemma k_Mmdvm2020_TypeUnknown : forall rt, reads rt T_Mmdvm2020_TypeUnknown (p_Mmdvm2020_TypeUnknown rt).
Proof. intros rt fs s; unfold T_Mmdvm2020_TypeUnknown, p_Mmdvm2020_TypeUnknown; kcbn; ksy. Qed.
#[export] Hint Resolve k_Mmdvm2020_TypeUnknown : ksy.
Lemma k_Mmdvm2020_TypeTalkerAlias : forall rt, reads rt T_Mmdvm2020_TypeTalkerAlias (p_Mmdvm2020_TypeTalkerAlias rt).
Proof. intros rt fs s; unfold T_Mmdvm2020_TypeTalkerAlias, p_Mmdvm2020_TypeTalkerAlias; rewrite ?E_Mmdvm2020_TalkerAliasTypes; kcbn; ksy. Qed.
#[export] Hint Resolve k_Mmdvm2020_TypeTalkerAlias : ksy.
Lemma k_Mmdvm2020_TypeDmrData : forall rt, reads rt T_Mmdvm2020_TypeDmrData (p_Mmdvm2020_TypeDmrData rt).
Proof. intros rt fs s; unfold T_Mmdvm2020_TypeDmrData, p_Mmdvm2020_TypeDmrData; rewrite ?E_Mmdvm2020_CallTypes, ?E_Mmdvm2020_FrameTypes, ?E_Mmdvm2020_Timeslots; kcbn; ksy. Qed.
#[export] Hint Resolve k_Mmdvm2020_TypeDmrData : ksy.
Lemma k_Mmdvm2020_TypeRepeaterLoginRequest : forall rt, reads rt T_Mmdvm2020_TypeRepeaterLoginRequest (p_Mmdvm2020_TypeRepeaterLoginRequest rt).
Proof. intros rt fs s; unfold T_Mmdvm2020_TypeRepeaterLoginRequest, p_Mmdvm2020_TypeRepeaterLoginRequest; kcbn; ksy. Qed.
#[export] Hint Resolve k_Mmdvm2020_TypeRepeaterLoginRequest : ksy.
Lemma k_Mmdvm2020_TypeRepeaterPing : forall rt, reads rt T_Mmdvm2020_TypeRepeaterPing (p_Mmdvm2020_TypeRepeaterPing rt).
Proof. intros rt fs s; unfold T_Mmdvm2020_TypeRepeaterPing, p_Mmdvm2020_TypeRepeaterPing; kcbn; ksy. Qed.
#[export] Hint Resolve k_Mmdvm2020_TypeRepeaterPing : ksy.
Lemma k_Mmdvm2020_TypeMasterPong : forall rt, reads rt T_Mmdvm2020_TypeMasterPong (p_Mmdvm2020_TypeMasterPong rt).
Proof. intros rt fs s; unfold T_Mmdvm2020_TypeMasterPong, p_Mmdvm2020_TypeMasterPong; kcbn; ksy. Qed.
#[export] Hint Resolve k_Mmdvm2020_TypeMasterPong : ksy.
Lemma k_Mmdvm2020_TypeMasterClosing : forall rt, reads rt T_Mmdvm2020_TypeMasterClosing (p_Mmdvm2020_TypeMasterClosing rt).
Proof. intros rt fs s; unfold T_Mmdvm2020_TypeMasterClosing, p_Mmdvm2020_TypeMasterClosing; kcbn; ksy. Qed.
#[export] Hint Resolve k_Mmdvm2020_TypeMasterClosing : ksy.
Lemma k_Mmdvm2020_TypeMasterNotAccept : forall rt, reads rt T_Mmdvm2020_TypeMasterNotAccept (p_Mmdvm2020_TypeMasterNotAccept rt).
Proof. intros rt fs s; unfold T_Mmdvm2020_TypeMasterNotAccept, p_Mmdvm2020_TypeMasterNotAccept; kcbn; ksy. Qed.
#[export] Hint Resolve k_Mmdvm2020_TypeMasterNotAccept : ksy.
Lemma k_Mmdvm2020_TypeMasterRepeaterAck : forall rt, reads rt T_Mmdvm2020_TypeMasterRepeaterAck (p_Mmdvm2020_TypeMasterRepeaterAck rt).
Proof. intros rt fs s; unfold T_Mmdvm2020_TypeMasterRepeaterAck, p_Mmdvm2020_TypeMasterRepeaterAck; kcbn; ksy. Qed.
#[export] Hint Resolve k_Mmdvm2020_TypeMasterRepeaterAck : ksy.
Lemma k_Mmdvm2020_TypeRepeaterLoginResponse : forall rt, reads rt T_Mmdvm2020_TypeRepeaterLoginResponse (p_Mmdvm2020_TypeRepeaterLoginResponse rt).
Proof. intros rt fs s; unfold T_Mmdvm2020_TypeRepeaterLoginResponse, p_Mmdvm2020_TypeRepeaterLoginResponse; kcbn; ksy. Qed.
#[export] Hint Resolve k_Mmdvm2020_TypeRepeaterLoginResponse : ksy.
Lemma k_Mmdvm2020_TypeRepeaterClosing : forall rt, reads rt T_Mmdvm2020_TypeRepeaterClosing (p_Mmdvm2020_TypeRepeaterClosing rt).
Proof. intros rt fs s; unfold T_Mmdvm2020_TypeRepeaterClosing, p_Mmdvm2020_TypeRepeaterClosing; kcbn; ksy. Qed.
#[export] Hint Resolve k_Mmdvm2020_TypeRepeaterClosing : ksy.
Lemma k_Mmdvm2020_TypeRepeaterConfiguration : forall rt, reads rt T_Mmdvm2020_TypeRepeaterConfiguration (p_Mmdvm2020_TypeRepeaterConfiguration rt).
Proof. intros rt fs s; unfold T_Mmdvm2020_TypeRepeaterConfiguration, p_Mmdvm2020_TypeRepeaterConfiguration; kcbn; ksy. Qed.
#[export] Hint Resolve k_Mmdvm2020_TypeRepeaterConfiguration : ksy.
Lemma k_Mmdvm2020_TypeRepeaterOptions : forall rt, reads rt T_Mmdvm2020_TypeRepeaterOptions (p_Mmdvm2020_TypeRepeaterOptions rt).
Proof. intros rt fs s; unfold T_Mmdvm2020_TypeRepeaterOptions, p_Mmdvm2020_TypeRepeaterOptions; kcbn; ksy. Qed.
#[export] Hint Resolve k_Mmdvm2020_TypeRepeaterOptions : ksy.
Lemma k_Mmdvm2020_TypeRadioPosition : forall rt, reads rt T_Mmdvm2020_TypeRadioPosition p_Mmdvm2020_TypeRadioPosition.
Proof. intros rt fs s; unfold T_Mmdvm2020_TypeRadioPosition, p_Mmdvm2020_TypeRadioPosition; rewrite ?E_Mmdvm2020_PositionErrors; kcbn; ksy. Qed.
#[export] Hint Resolve k_Mmdvm2020_TypeRadioPosition : ksy.
Lemma k_Mmdvm2020_TypeRepeaterBeacon : forall rt, reads rt T_Mmdvm2020_TypeRepeaterBeacon p_Mmdvm2020_TypeRepeaterBeacon.
Proof. intros rt fs s; unfold T_Mmdvm2020_TypeRepeaterBeacon, p_Mmdvm2020_TypeRepeaterBeacon; kcbn; ksy. Qed.
#[export] Hint Resolve k_Mmdvm2020_TypeRepeaterBeacon : ksy.
Lemma k_Mmdvm2020 : forall rt, reads0 rt T_Mmdvm2020 (p_Mmdvm2020 rt).
Proof. intros rt s; unfold T_Mmdvm2020, p_Mmdvm2020, T_Mmdvm2020_TypeRepeaterConfigurationOrClosing, p_Mmdvm2020_TypeRepeaterConfigurationOrClosing, I_Mmdvm2020_fifth_letter; kcbn; refold rt T_Mmdvm2020_TypeDmrData; refold rt T_Mmdvm2020_TypeMasterClosing; refold rt T_Mmdvm2020_TypeMasterNotAccept; refold rt T_Mmdvm2020_TypeMasterPong; refold rt T_Mmdvm2020_TypeMasterRepeaterAck; refold rt T_Mmdvm2020_TypeRadioPosition; refold rt T_Mmdvm2020_TypeRepeaterBeacon; refold rt T_Mmdvm2020_TypeRepeaterClosing; refold rt T_Mmdvm2020_TypeRepeaterConfiguration; refold rt T_Mmdvm2020_TypeRepeaterLoginRequest; refold rt T_Mmdvm2020_TypeRepeaterLoginResponse; refold rt T_Mmdvm2020_TypeRepeaterOptions; refold rt T_Mmdvm2020_TypeRepeaterPing; refold rt T_Mmdvm2020_TypeTalkerAlias; ksy. Qed.
#[export] Hint Resolve k_Mmdvm2020 : ksy.
