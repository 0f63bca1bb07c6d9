(** The parsers of the model are their .ksy definitions, interpreted: motorola. *)
From Verif Require Import PyBase Runtime Codec Enums EtsiModel HomebrewModel HyteraModel MotorolaModel Ksy KsyDefs KsyTac.
Open Scope string_scope.
Open Scope list_scope.
Open Scope Z_scope.
Lemma k_AutomaticRegistrationService_MessageHeaderBits : forall rt, reads rt T_AutomaticRegistrationService_MessageHeaderBits p_AutomaticRegistrationService_MessageHeaderBits.
Proof. intros rt fs s; unfold T_AutomaticRegistrationService_MessageHeaderBits, p_AutomaticRegistrationService_MessageHeaderBits; kcbn; ksy. Qed.
#[export] Hint Resolve k_AutomaticRegistrationService_MessageHeaderBits : ksy.
Lemma k_AutomaticRegistrationService_DeviceRegistrationMessageHeader : forall rt, reads rt T_AutomaticRegistrationService_DeviceRegistrationMessageHeader p_AutomaticRegistrationService_DeviceRegistrationMessageHeader.
Proof. intros rt fs s; unfold T_AutomaticRegistrationService_DeviceRegistrationMessageHeader, p_AutomaticRegistrationService_DeviceRegistrationMessageHeader; rewrite ?E_AutomaticRegistrationService_RegistrationEvents; kcbn; ksy. Qed.
#[export] Hint Resolve k_AutomaticRegistrationService_DeviceRegistrationMessageHeader : ksy.
Lemma k_AutomaticRegistrationService_DeviceRegistrationAcknowledgementHeader : forall rt, reads rt T_AutomaticRegistrationService_DeviceRegistrationAcknowledgementHeader p_AutomaticRegistrationService_DeviceRegistrationAcknowledgementHeader.
Proof. intros rt fs s; unfold T_AutomaticRegistrationService_DeviceRegistrationAcknowledgementHeader, p_AutomaticRegistrationService_DeviceRegistrationAcknowledgementHeader; kcbn; ksy. Qed.
#[export] Hint Resolve k_AutomaticRegistrationService_DeviceRegistrationAcknowledgementHeader : ksy.
Lemma k_AutomaticRegistrationService_DeviceRegistrationAcknowledgementFailureReason : forall rt, reads rt T_AutomaticRegistrationService_DeviceRegistrationAcknowledgementFailureReason p_AutomaticRegistrationService_DeviceRegistrationAcknowledgementFailureReason.
Proof. intros rt fs s; unfold T_AutomaticRegistrationService_DeviceRegistrationAcknowledgementFailureReason, p_AutomaticRegistrationService_DeviceRegistrationAcknowledgementFailureReason; rewrite ?E_AutomaticRegistrationService_FailureReasons; kcbn; ksy. Qed.
#[export] Hint Resolve k_AutomaticRegistrationService_DeviceRegistrationAcknowledgementFailureReason : ksy.
Lemma k_AutomaticRegistrationService_DeviceDeregistrationMessage : forall rt, reads rt T_AutomaticRegistrationService_DeviceDeregistrationMessage p_AutomaticRegistrationService_DeviceDeregistrationMessage.
Proof. intros rt fs s; unfold T_AutomaticRegistrationService_DeviceDeregistrationMessage, p_AutomaticRegistrationService_DeviceDeregistrationMessage; kcbn; ksy. Qed.
#[export] Hint Resolve k_AutomaticRegistrationService_DeviceDeregistrationMessage : ksy.
Lemma k_AutomaticRegistrationService_ArsQueryMessage : forall rt, reads rt T_AutomaticRegistrationService_ArsQueryMessage p_AutomaticRegistrationService_ArsQueryMessage.
Proof. intros rt fs s; unfold T_AutomaticRegistrationService_ArsQueryMessage, p_AutomaticRegistrationService_ArsQueryMessage; kcbn; ksy. Qed.
#[export] Hint Resolve k_AutomaticRegistrationService_ArsQueryMessage : ksy.
Lemma k_AutomaticRegistrationService : forall rt, reads0 rt T_AutomaticRegistrationService (p_AutomaticRegistrationService rt).
Proof. intros rt s; unfold T_AutomaticRegistrationService, p_AutomaticRegistrationService, T_AutomaticRegistrationService_MessageHeaderBits, p_AutomaticRegistrationService_MessageHeaderBits, T_AutomaticRegistrationService_DeviceRegistrationMessage, p_AutomaticRegistrationService_DeviceRegistrationMessage, T_AutomaticRegistrationService_AcknowledgementMessage, p_AutomaticRegistrationService_AcknowledgementMessage; kcbn; refold rt T_AutomaticRegistrationService_ArsQueryMessage; refold rt T_AutomaticRegistrationService_DeviceDeregistrationMessage; refold rt T_AutomaticRegistrationService_DeviceRegistrationAcknowledgementFailureReason; refold rt T_AutomaticRegistrationService_DeviceRegistrationAcknowledgementHeader; refold rt T_AutomaticRegistrationService_DeviceRegistrationMessageHeader; ksy. Qed.
#[export] Hint Resolve k_AutomaticRegistrationService : ksy.
Lemma k_MotorolaBinaryXml_Uintvar : forall rt, reads rt T_MotorolaBinaryXml_Uintvar (p_MotorolaBinaryXml_Uintvar rt).
Proof. intros rt fs s; unfold T_MotorolaBinaryXml_Uintvar, p_MotorolaBinaryXml_Uintvar; kcbn; ksy. Qed.
#[export] Hint Resolve k_MotorolaBinaryXml_Uintvar : ksy.
Lemma k_MotorolaBinaryXml_Sintvar : forall rt, reads rt T_MotorolaBinaryXml_Sintvar (p_MotorolaBinaryXml_Sintvar rt).
Proof. intros rt fs s; unfold T_MotorolaBinaryXml_Sintvar, p_MotorolaBinaryXml_Sintvar; kcbn; ksy. Qed.
#[export] Hint Resolve k_MotorolaBinaryXml_Sintvar : ksy.
Lemma k_MotorolaBinaryXml_Ufloatvar : forall rt, reads rt T_MotorolaBinaryXml_Ufloatvar (p_MotorolaBinaryXml_Ufloatvar rt).
Proof. intros rt fs s; unfold T_MotorolaBinaryXml_Ufloatvar, p_MotorolaBinaryXml_Ufloatvar; kcbn; refold rt T_MotorolaBinaryXml_Uintvar; ksy. Qed.
#[export] Hint Resolve k_MotorolaBinaryXml_Ufloatvar : ksy.
Lemma k_MotorolaBinaryXml_Sfloatvar : forall rt, reads rt T_MotorolaBinaryXml_Sfloatvar (p_MotorolaBinaryXml_Sfloatvar rt).
Proof. intros rt fs s; unfold T_MotorolaBinaryXml_Sfloatvar, p_MotorolaBinaryXml_Sfloatvar; kcbn; refold rt T_MotorolaBinaryXml_Sintvar; refold rt T_MotorolaBinaryXml_Uintvar; ksy. Qed.
#[export] Hint Resolve k_MotorolaBinaryXml_Sfloatvar : ksy.
Lemma k_MotorolaBinaryXml_OpaqueElementValue : forall rt, reads rt T_MotorolaBinaryXml_OpaqueElementValue (p_MotorolaBinaryXml_OpaqueElementValue rt).
Proof. intros rt fs s; unfold T_MotorolaBinaryXml_OpaqueElementValue, p_MotorolaBinaryXml_OpaqueElementValue; kcbn; ksy. Qed.
#[export] Hint Resolve k_MotorolaBinaryXml_OpaqueElementValue : ksy.
Lemma k_MotorolaBinaryXml_Opaque1byteValue : forall rt, reads rt T_MotorolaBinaryXml_Opaque1byteValue (p_MotorolaBinaryXml_Opaque1byteValue rt).
Proof. intros rt fs s; unfold T_MotorolaBinaryXml_Opaque1byteValue, p_MotorolaBinaryXml_Opaque1byteValue; kcbn; ksy. Qed.
#[export] Hint Resolve k_MotorolaBinaryXml_Opaque1byteValue : ksy.
Lemma k_MotorolaBinaryXml_Opaque2byteValue : forall rt, reads rt T_MotorolaBinaryXml_Opaque2byteValue (p_MotorolaBinaryXml_Opaque2byteValue rt).
Proof. intros rt fs s; unfold T_MotorolaBinaryXml_Opaque2byteValue, p_MotorolaBinaryXml_Opaque2byteValue; kcbn; ksy. Qed.
#[export] Hint Resolve k_MotorolaBinaryXml_Opaque2byteValue : ksy.
Lemma k_MotorolaBinaryXml_Opaque3byteValue : forall rt, reads rt T_MotorolaBinaryXml_Opaque3byteValue (p_MotorolaBinaryXml_Opaque3byteValue rt).
Proof. intros rt fs s; unfold T_MotorolaBinaryXml_Opaque3byteValue, p_MotorolaBinaryXml_Opaque3byteValue; kcbn; ksy. Qed.
#[export] Hint Resolve k_MotorolaBinaryXml_Opaque3byteValue : ksy.
Lemma k_MotorolaBinaryXml_Opaque4byteValue : forall rt, reads rt T_MotorolaBinaryXml_Opaque4byteValue (p_MotorolaBinaryXml_Opaque4byteValue rt).
Proof. intros rt fs s; unfold T_MotorolaBinaryXml_Opaque4byteValue, p_MotorolaBinaryXml_Opaque4byteValue; kcbn; ksy. Qed.
#[export] Hint Resolve k_MotorolaBinaryXml_Opaque4byteValue : ksy.
Lemma k_MotorolaBinaryXml_Opaque5byteValue : forall rt, reads rt T_MotorolaBinaryXml_Opaque5byteValue (p_MotorolaBinaryXml_Opaque5byteValue rt).
Proof. intros rt fs s; unfold T_MotorolaBinaryXml_Opaque5byteValue, p_MotorolaBinaryXml_Opaque5byteValue; kcbn; ksy. Qed.
#[export] Hint Resolve k_MotorolaBinaryXml_Opaque5byteValue : ksy.
Lemma k_MotorolaBinaryXml_ConstantDataTableReference : forall rt, reads rt T_MotorolaBinaryXml_ConstantDataTableReference (p_MotorolaBinaryXml_ConstantDataTableReference rt).
Proof. intros rt fs s; unfold T_MotorolaBinaryXml_ConstantDataTableReference, p_MotorolaBinaryXml_ConstantDataTableReference; kcbn; refold rt T_MotorolaBinaryXml_Uintvar; ksy. Qed.
#[export] Hint Resolve k_MotorolaBinaryXml_ConstantDataTableReference : ksy.
Lemma k_MotorolaBinaryXml_LrrpElement : forall rt, reads rt T_MotorolaBinaryXml_LrrpElement (p_MotorolaBinaryXml_LrrpElement rt).
Proof. intros rt fs s; unfold T_MotorolaBinaryXml_LrrpElement, p_MotorolaBinaryXml_LrrpElement; rewrite ?E_MotorolaBinaryXml_LrrpElements; kcbn; refold rt T_MotorolaBinaryXml_ConstantDataTableReference; refold rt T_MotorolaBinaryXml_Opaque1byteValue; refold rt T_MotorolaBinaryXml_OpaqueElementValue; ksy. Qed.
#[export] Hint Resolve k_MotorolaBinaryXml_LrrpElement : ksy.
Lemma k_MotorolaBinaryXml_LrrpImmediateRequestNcdt : forall rt, reads rt T_MotorolaBinaryXml_LrrpImmediateRequestNcdt (p_MotorolaBinaryXml_LrrpImmediateRequestNcdt rt).
Proof. intros rt fs s; unfold T_MotorolaBinaryXml_LrrpImmediateRequestNcdt, p_MotorolaBinaryXml_LrrpImmediateRequestNcdt; kcbn; refold rt T_MotorolaBinaryXml_LrrpElement; ksy. Qed.
#[export] Hint Resolve k_MotorolaBinaryXml_LrrpImmediateRequestNcdt : ksy.
Lemma k_MotorolaBinaryXml_MbxmlDocument : forall rt, reads rt T_MotorolaBinaryXml_MbxmlDocument (p_MotorolaBinaryXml_MbxmlDocument rt).
Proof. intros rt fs s; unfold T_MotorolaBinaryXml_MbxmlDocument, p_MotorolaBinaryXml_MbxmlDocument; rewrite ?E_MotorolaBinaryXml_Docids; kcbn; refold rt T_MotorolaBinaryXml_LrrpImmediateRequestNcdt; refold rt T_MotorolaBinaryXml_Uintvar; ksy. Qed.
#[export] Hint Resolve k_MotorolaBinaryXml_MbxmlDocument : ksy.
Lemma k_MotorolaBinaryXml : forall rt, reads rt T_MotorolaBinaryXml (p_MotorolaBinaryXml rt).
Proof. intros rt fs s; unfold T_MotorolaBinaryXml, p_MotorolaBinaryXml; kcbn; refold rt T_MotorolaBinaryXml_MbxmlDocument; ksy. Qed.
#[export] Hint Resolve k_MotorolaBinaryXml : ksy.
Lemma k_MotTextMessageProtocol_MessageHeaderBits : forall rt, reads rt T_MotTextMessageProtocol_MessageHeaderBits p_MotTextMessageProtocol_MessageHeaderBits.
Proof. intros rt fs s; unfold T_MotTextMessageProtocol_MessageHeaderBits, p_MotTextMessageProtocol_MessageHeaderBits; kcbn; ksy. Qed.
#[export] Hint Resolve k_MotTextMessageProtocol_MessageHeaderBits : ksy.
Lemma k_MotTextMessageProtocol_TmsServiceAvailabilityHeader : forall rt, reads rt T_MotTextMessageProtocol_TmsServiceAvailabilityHeader p_MotTextMessageProtocol_TmsServiceAvailabilityHeader.
Proof. intros rt fs s; unfold T_MotTextMessageProtocol_TmsServiceAvailabilityHeader, p_MotTextMessageProtocol_TmsServiceAvailabilityHeader; rewrite ?E_MotTextMessageProtocol_TmsServiceCapability; kcbn; ksy. Qed.
#[export] Hint Resolve k_MotTextMessageProtocol_TmsServiceAvailabilityHeader : ksy.
Lemma k_MotTextMessageProtocol_TmsServiceAvailabilityAcknowledgement : forall rt, reads rt T_MotTextMessageProtocol_TmsServiceAvailabilityAcknowledgement p_MotTextMessageProtocol_TmsServiceAvailabilityAcknowledgement.
Proof. intros rt fs s; unfold T_MotTextMessageProtocol_TmsServiceAvailabilityAcknowledgement, p_MotTextMessageProtocol_TmsServiceAvailabilityAcknowledgement; kcbn; ksy. Qed.
#[export] Hint Resolve k_MotTextMessageProtocol_TmsServiceAvailabilityAcknowledgement : ksy.
Lemma k_MotTextMessageProtocol_TmsAcknowledgementHeaderSequenceNumber : forall rt, reads rt T_MotTextMessageProtocol_TmsAcknowledgementHeaderSequenceNumber p_MotTextMessageProtocol_TmsAcknowledgementHeaderSequenceNumber.
Proof. intros rt fs s; unfold T_MotTextMessageProtocol_TmsAcknowledgementHeaderSequenceNumber, p_MotTextMessageProtocol_TmsAcknowledgementHeaderSequenceNumber; kcbn; ksy. Qed.
#[export] Hint Resolve k_MotTextMessageProtocol_TmsAcknowledgementHeaderSequenceNumber : ksy.
Lemma k_MotTextMessageProtocol_TextMessageHeaderSequenceAndEncoding : forall rt, reads rt T_MotTextMessageProtocol_TextMessageHeaderSequenceAndEncoding p_MotTextMessageProtocol_TextMessageHeaderSequenceAndEncoding.
Proof. intros rt fs s; unfold T_MotTextMessageProtocol_TextMessageHeaderSequenceAndEncoding, p_MotTextMessageProtocol_TextMessageHeaderSequenceAndEncoding; kcbn; ksy. Qed.
#[export] Hint Resolve k_MotTextMessageProtocol_TextMessageHeaderSequenceAndEncoding : ksy.
Lemma k_MotTextMessageProtocol : forall rt, reads0 rt T_MotTextMessageProtocol (p_MotTextMessageProtocol rt).
Proof. intros rt s; unfold T_MotTextMessageProtocol, p_MotTextMessageProtocol, T_MotTextMessageProtocol_MessageHeaderBits, p_MotTextMessageProtocol_MessageHeaderBits, T_MotTextMessageProtocol_TmsServiceAvailability, p_MotTextMessageProtocol_TmsServiceAvailability, T_MotTextMessageProtocol_TmsAcknowledgement, p_MotTextMessageProtocol_TmsAcknowledgement, T_MotTextMessageProtocol_TextMessage, p_MotTextMessageProtocol_TextMessage, I_MotTextMessageProtocol_custom_pdu_type; kcbn; refold rt T_MotTextMessageProtocol_TextMessageHeaderSequenceAndEncoding; refold rt T_MotTextMessageProtocol_TmsAcknowledgementHeaderSequenceNumber; refold rt T_MotTextMessageProtocol_TmsServiceAvailabilityHeader; ksy. Qed.
#[export] Hint Resolve k_MotTextMessageProtocol : ksy.
