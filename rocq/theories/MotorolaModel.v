(** Model of okdmr/kaitai/motorola: one definition per generated [_read] / property, and the helper
    functions of motorola_utils.py (paths are relative to /repo/okdmr/kaitai).  Nested classes that read
    [self._root.message_header] get the header object of the enclosing message as a parameter [hdr]. *)
From Verif Require Import PyBase Runtime Codec Enums Getters HyteraModel.
Open Scope string_scope.
Open Scope list_scope.
Open Scope Z_scope.

(** [x.name] where an int is needed *)
Definition int_of (x : string) (o : pyval) : M Z :=
    match getattr x o with Some (VInt v) => ret v | Some _ => fail TypeError | None => fail (AttributeError x) end.

Section Motorola.
Context (rt : runtime).

(** * motorola/automatic_registration_service.py *)

(** motorola/automatic_registration_service.py:87-93 [AutomaticRegistrationService.DeviceRegistrationMessageHeader._read] *)
Definition p_AutomaticRegistrationService_DeviceRegistrationMessageHeader : M pyval := obj "AutomaticRegistrationService.DeviceRegistrationMessageHeader" [
    ("extension_bit", vflag);
    ("event", venum AutomaticRegistrationService_RegistrationEvents (read_bits 2));
    ("encoding", vbits 5)].

(** motorola/automatic_registration_service.py:102-107 [AutomaticRegistrationService.MessageHeaderBits._read] *)
Definition p_AutomaticRegistrationService_MessageHeaderBits : M pyval := obj "AutomaticRegistrationService.MessageHeaderBits" [
    ("extension_bit", vflag);
    ("acknowledgement_bit", vflag);
    ("priority", vflag);
    ("control_user_bit", vflag);
    ("pdu_type", vbits 4)].

(** motorola/automatic_registration_service.py:118-119 [AutomaticRegistrationService.DeviceDeregistrationMessage._read] *)
Definition p_AutomaticRegistrationService_DeviceDeregistrationMessage : M pyval :=
    ret (VObj "AutomaticRegistrationService.DeviceDeregistrationMessage" []).

(** motorola/automatic_registration_service.py:130-135 [AutomaticRegistrationService.DeviceRegistrationAcknowledgementFailureReason._read] *)
Definition p_AutomaticRegistrationService_DeviceRegistrationAcknowledgementFailureReason : M pyval := obj "AutomaticRegistrationService.DeviceRegistrationAcknowledgementFailureReason" [
    ("extension_bit", vflag);
    ("failure_reason", venum AutomaticRegistrationService_FailureReasons (read_bits 7))].

(** motorola/automatic_registration_service.py:187-189 [AutomaticRegistrationService.DeviceRegistrationAcknowledgementHeader._read] *)
Definition p_AutomaticRegistrationService_DeviceRegistrationAcknowledgementHeader : M pyval := obj "AutomaticRegistrationService.DeviceRegistrationAcknowledgementHeader" [
    ("extension_bit", vflag);
    ("refresh_time", vbits 7)].

(** motorola/automatic_registration_service.py:65-78 [AutomaticRegistrationService.AcknowledgementMessage._read] *)
Definition p_AutomaticRegistrationService_AcknowledgementMessage (hdr : pyval) : M pyval :=
    extension_bit <- flag_of "extension_bit" hdr;;
    acknowledgement_bit <- flag_of "acknowledgement_bit" hdr;;
    header <- (if extension_bit && acknowledgement_bit
        then some p_AutomaticRegistrationService_DeviceRegistrationAcknowledgementHeader else none);;
    failure_reason <- (if extension_bit && negb acknowledgement_bit
        then some p_AutomaticRegistrationService_DeviceRegistrationAcknowledgementFailureReason else none);;
    ret (VObj "AutomaticRegistrationService.AcknowledgementMessage"
       (opt "device_registration_acknowledgement_header" header ++ opt "device_registration_acknowledgement_failure_reason" failure_reason)).

(** motorola/automatic_registration_service.py:146-164 [AutomaticRegistrationService.DeviceRegistrationMessage._read] *)
Definition p_AutomaticRegistrationService_DeviceRegistrationMessage (hdr : pyval) : M pyval :=
    extension_bit <- flag_of "extension_bit" hdr;;
    header <- (if extension_bit then some p_AutomaticRegistrationService_DeviceRegistrationMessageHeader else none);;
    len_device_identifier <- read_u1 rt;;
    device_identifier <- (if 0 <? len_device_identifier then some (vbytes rt len_device_identifier) else none);;
    len_user_identifier <- read_u1 rt;;
    user_identifier <- (if 0 <? len_user_identifier then some (vbytes rt len_user_identifier) else none);;
    len_password <- read_u1 rt;;
    password <- (if 0 <? len_password then some (vbytes rt len_password) else none);;
    ret (VObj "AutomaticRegistrationService.DeviceRegistrationMessage"
       (opt "device_registration_message_header" header ++
        [("len_device_identifier", VInt len_device_identifier)] ++ opt "device_identifier" device_identifier ++
        [("len_user_identifier", VInt len_user_identifier)] ++ opt "user_identifier" user_identifier ++
        [("len_password", VInt len_password)] ++ opt "password" password)).

(** motorola/automatic_registration_service.py:175-176 [AutomaticRegistrationService.ArsQueryMessage._read] *)
Definition p_AutomaticRegistrationService_ArsQueryMessage : M pyval :=
    ret (VObj "AutomaticRegistrationService.ArsQueryMessage" []).

(** motorola/automatic_registration_service.py:30-52 [AutomaticRegistrationService._read] *)
Definition p_AutomaticRegistrationService : M pyval :=
    message_size <- read_u2le rt;;
    message_header <- p_AutomaticRegistrationService_MessageHeaderBits;;
    on_ <- int_of "pdu_type" message_header;;
    pdu_content <- (if on_ =? 0 then some (p_AutomaticRegistrationService_DeviceRegistrationMessage message_header)
        else if on_ =? 1 then some p_AutomaticRegistrationService_DeviceDeregistrationMessage
        else if on_ =? 4 then some p_AutomaticRegistrationService_ArsQueryMessage
        else if on_ =? 15 then some (p_AutomaticRegistrationService_AcknowledgementMessage message_header)
        else none);;
    unparsed_data <- read_bytes_full rt;;
    ret (VObj "AutomaticRegistrationService" ([("message_size", VInt message_size); ("message_header", message_header)] ++ opt "pdu_content" pdu_content ++ [("unparsed_data", VBytes unparsed_data)])).

(** * motorola/text_message_protocol.py *)

(** motorola/text_message_protocol.py:98-108 [TextMessageProtocol.TextMessageHeaderSequenceAndEncoding._read] *)
Definition p_MotTextMessageProtocol_TextMessageHeaderSequenceAndEncoding : M pyval :=
    has_encoding_header <- read_flag;;
    reserved_1 <- read_bits 2;;
    sequence_number_lsb_bits <- read_bits 5;;
    header_encoding_extension <- (if has_encoding_header then some (vflag)
        else none);;
    sequence_number_msb_bits <- (if has_encoding_header then some (vint (read_bits 2))
        else none);;
    encoding <- read_bits 5;;
    ret (VObj "TextMessageProtocol.TextMessageHeaderSequenceAndEncoding" ([("has_encoding_header", VBool has_encoding_header); ("reserved_1", VInt reserved_1); ("sequence_number_lsb_bits", VInt sequence_number_lsb_bits)] ++ opt "header_encoding_extension" header_encoding_extension ++ opt "sequence_number_msb_bits" sequence_number_msb_bits ++ [("encoding", VInt encoding)])).

(** motorola/text_message_protocol.py:111-118 [TextMessageProtocol.TextMessageHeaderSequenceAndEncoding.sequence_number] *)
Definition MotTextMessageProtocol_TextMessageHeader_sequence_number : live -> res pyval * live := memo "sequence_number" (fun a =>
    msb <- stored_int "sequence_number_msb_bits" a;;
    lsb <- stored_int "sequence_number_lsb_bits" a;;
    ret (VInt (Z.shiftl msb 4 + lsb))).

(** motorola/text_message_protocol.py:66-74 [TextMessageProtocol.TextMessage._read] *)
Definition p_MotTextMessageProtocol_TextMessage (hdr : pyval) : M pyval :=
    extension_bit <- flag_of "extension_bit" hdr;;
    header <- (if extension_bit then some p_MotTextMessageProtocol_TextMessageHeaderSequenceAndEncoding else none);;
    x <- read_bytes_full rt;;
    text_message <- lift (py_decode UTF16LE x);;
    ret (VObj "TextMessageProtocol.TextMessage" (opt "text_message_header_sequence_and_encoding" header ++ [("text_message", VStr text_message)])).

(** motorola/text_message_protocol.py:202-207 [TextMessageProtocol.TmsServiceAvailabilityHeader._read] *)
Definition p_MotTextMessageProtocol_TmsServiceAvailabilityHeader : M pyval := obj "TextMessageProtocol.TmsServiceAvailabilityHeader" [
    ("extension_bit", vflag);
    ("reserved", vbits 4);
    ("device", venum MotTextMessageProtocol_TmsServiceCapability (read_bits 3))].

(** motorola/text_message_protocol.py:85-89 [TextMessageProtocol.TmsServiceAvailability._read] *)
Definition p_MotTextMessageProtocol_TmsServiceAvailability (hdr : pyval) : M pyval :=
    extension_bit <- flag_of "extension_bit" hdr;;
    header <- (if extension_bit then some p_MotTextMessageProtocol_TmsServiceAvailabilityHeader else none);;
    ret (VObj "TextMessageProtocol.TmsServiceAvailability" (opt "header" header)).

(** motorola/text_message_protocol.py:127-132 [TextMessageProtocol.MessageHeaderBits._read] *)
Definition p_MotTextMessageProtocol_MessageHeaderBits : M pyval := obj "TextMessageProtocol.MessageHeaderBits" [
    ("extension_bit", vflag);
    ("acknowledgement_required", vflag);
    ("reserved", vflag);
    ("control_user_bit", vflag);
    ("pdu_type", vbits 4)].

(** motorola/text_message_protocol.py:160-171 [TextMessageProtocol.TmsAcknowledgementHeaderSequenceNumber._read] *)
Definition p_MotTextMessageProtocol_TmsAcknowledgementHeaderSequenceNumber : M pyval :=
    has_msb_header <- read_flag;;
    header_lsb_reserved <- read_bits 2;;
    header_lsb_bits <- read_bits 5;;
    header_msb_extension <- (if has_msb_header then some (vflag)
        else none);;
    header_msb_bits <- (if has_msb_header then some (vint (read_bits 2))
        else none);;
    header_msb_reserved <- (if has_msb_header then some (vint (read_bits 5))
        else none);;
    ret (VObj "TextMessageProtocol.TmsAcknowledgementHeaderSequenceNumber" ([("has_msb_header", VBool has_msb_header); ("header_lsb_reserved", VInt header_lsb_reserved); ("header_lsb_bits", VInt header_lsb_bits)] ++ opt "header_msb_extension" header_msb_extension ++ opt "header_msb_bits" header_msb_bits ++ opt "header_msb_reserved" header_msb_reserved)).

(** motorola/text_message_protocol.py:174-179 [TextMessageProtocol.TmsAcknowledgementHeaderSequenceNumber.sequence_number] *)
Definition MotTextMessageProtocol_TmsAcknowledgementHeader_sequence_number : live -> res pyval * live := memo "sequence_number" (fun a =>
    msb <- stored_int "header_msb_bits" a;;
    lsb <- stored_int "header_lsb_bits" a;;
    ret (VInt (Z.shiftl msb 4 + lsb))).

(** motorola/text_message_protocol.py:143-149 [TextMessageProtocol.TmsAcknowledgement._read] *)
Definition p_MotTextMessageProtocol_TmsAcknowledgement (hdr : pyval) : M pyval :=
    extension_bit <- flag_of "extension_bit" hdr;;
    header <- (if extension_bit then some p_MotTextMessageProtocol_TmsAcknowledgementHeaderSequenceNumber else none);;
    ret (VObj "TextMessageProtocol.TmsAcknowledgement" (opt "tms_acknowledgement_header_sequence_number" header)).

(** motorola/text_message_protocol.py:192-193 [TextMessageProtocol.TmsServiceAvailabilityAcknowledgement._read] (never used by the parser) *)
Definition p_MotTextMessageProtocol_TmsServiceAvailabilityAcknowledgement : M pyval :=
    ret (VObj "TextMessageProtocol.TmsServiceAvailabilityAcknowledgement" []).

(** motorola/text_message_protocol.py:210-219 [TextMessageProtocol.custom_pdu_type], the computation behind
    the memo test; first evaluated by [_read], which records the memo attribute. *)
Definition MotTextMessageProtocol_custom_pdu_type (hdr : pyval) : M Z :=
    acknowledgement_required <- flag_of "acknowledgement_required" hdr;;
    control_user_bit <- flag_of "control_user_bit" hdr;;
    pdu_type <- int_of "pdu_type" hdr;;
    ret ((Z.shiftl (Z.b2z acknowledgement_required) 5 + Z.shiftl (Z.b2z control_user_bit) 4) + pdu_type).

(** motorola/text_message_protocol.py:29-55 [TextMessageProtocol._read] *)
Definition p_MotTextMessageProtocol : M pyval :=
    message_size <- read_u2be rt;;
    message_header <- p_MotTextMessageProtocol_MessageHeaderBits;;
    len_address <- read_u1 rt;;
    address <- (if 0 <? len_address then some (vbytes rt len_address) else none);;
    on_ <- MotTextMessageProtocol_custom_pdu_type message_header;;
    pdu_content <- (if on_ =? 48 then some (p_MotTextMessageProtocol_TmsServiceAvailability message_header)
        else if on_ =? 31 then some (p_MotTextMessageProtocol_TmsAcknowledgement message_header)
        else if on_ =? 0 then some (p_MotTextMessageProtocol_TextMessage message_header)
        else if on_ =? 32 then some (p_MotTextMessageProtocol_TextMessage message_header)
        else none);;
    unparsed_data <- read_bytes_full rt;;
    ret (VObj "TextMessageProtocol" ([("message_size", VInt message_size); ("message_header", message_header); ("len_address", VInt len_address)] ++ opt "address" address ++ [("_m_custom_pdu_type", VInt on_)] ++ opt "pdu_content" pdu_content ++ [("unparsed_data", VBytes unparsed_data)])).

(** * motorola/motorola_binary_xml.py *)

(** motorola/motorola_binary_xml.py:206-208 [MotorolaBinaryXml.OpaqueElementValue._read] *)
Definition p_MotorolaBinaryXml_OpaqueElementValue : M pyval :=
    len_value <- read_u1 rt;;
    value <- read_bytes rt (len_value);;
    ret (VObj "MotorolaBinaryXml.OpaqueElementValue" ([("len_value", VInt len_value); ("value", VBytes value)])).

(** motorola/motorola_binary_xml.py:124-125 [MotorolaBinaryXml.Opaque1byteValue._read] *)
Definition p_MotorolaBinaryXml_Opaque1byteValue : M pyval := obj "MotorolaBinaryXml.Opaque1byteValue" [
    ("value", vbytes rt 1)].

(** motorola/motorola_binary_xml.py:217-218 [MotorolaBinaryXml.Opaque2byteValue._read] *)
Definition p_MotorolaBinaryXml_Opaque2byteValue : M pyval := obj "MotorolaBinaryXml.Opaque2byteValue" [
    ("value", vbytes rt 2)].

(** motorola/motorola_binary_xml.py:64-65 [MotorolaBinaryXml.Opaque3byteValue._read] *)
Definition p_MotorolaBinaryXml_Opaque3byteValue : M pyval := obj "MotorolaBinaryXml.Opaque3byteValue" [
    ("value", vbytes rt 3)].

(** motorola/motorola_binary_xml.py:249-250 [MotorolaBinaryXml.Opaque4byteValue._read] *)
Definition p_MotorolaBinaryXml_Opaque4byteValue : M pyval := obj "MotorolaBinaryXml.Opaque4byteValue" [
    ("value", vbytes rt 4)].

(** motorola/motorola_binary_xml.py:114-115 [MotorolaBinaryXml.Opaque5byteValue._read] *)
Definition p_MotorolaBinaryXml_Opaque5byteValue : M pyval := obj "MotorolaBinaryXml.Opaque5byteValue" [
    ("value", vbytes rt 5)].

(** motorola/motorola_binary_xml.py:138-146 and 232-240: the [while True] loop of [Uintvar._read] / [Sintvar._read] *)
Fixpoint var_payload (fuel : nat) : M (list pyval) :=
  match fuel with
  | O => fail OutOfFuel
  | S fuel' =>
      x <- read_u1 rt;;
      (* [or] evaluates [is_eof] only if the first test fails *)
      stop <- (if Z.land x 128 =? 0 then ret true else is_eof rt);;
      if stop then ret [VInt x] else l <- var_payload fuel';; ret (VInt x :: l)
  end.

(** motorola/motorola_binary_xml.py:138-146 [MotorolaBinaryXml.Uintvar._read] *)
Definition p_MotorolaBinaryXml_Uintvar : M pyval :=
    payload <- with_fuel var_payload;;
    ret (VObj "MotorolaBinaryXml.Uintvar" [("payload", VList payload)]).

(** motorola/motorola_binary_xml.py:232-240 [MotorolaBinaryXml.Sintvar._read] *)
Definition p_MotorolaBinaryXml_Sintvar : M pyval :=
    payload <- with_fuel var_payload;;
    ret (VObj "MotorolaBinaryXml.Sintvar" [("payload", VList payload)]).

(** motorola/motorola_binary_xml.py:172-175 [MotorolaBinaryXml.ConstantDataTableReference._read] *)
Definition p_MotorolaBinaryXml_ConstantDataTableReference : M pyval := obj "MotorolaBinaryXml.ConstantDataTableReference" [
    ("byte_offset_from_cdt_start", p_MotorolaBinaryXml_Uintvar)].

(** motorola/motorola_binary_xml.py:74-90 [MotorolaBinaryXml.LrrpElement._read] *)
Definition p_MotorolaBinaryXml_LrrpElement : M pyval :=
    lrrp_element_type <- venum MotorolaBinaryXml_LrrpElements (read_u1 rt);;
    lrrp_element_data <- (if eq_member MotorolaBinaryXml_LrrpElements "request_id_22_opaque" lrrp_element_type then some (p_MotorolaBinaryXml_OpaqueElementValue)
        else if eq_member MotorolaBinaryXml_LrrpElements "request_id_23_opaque_1byte" lrrp_element_type then some (p_MotorolaBinaryXml_Opaque1byteValue)
        else if eq_member MotorolaBinaryXml_LrrpElements "request_id_24_cdt_reference" lrrp_element_type then some (p_MotorolaBinaryXml_ConstantDataTableReference)
        else none);;
    ret (VObj "MotorolaBinaryXml.LrrpElement" ([("lrrp_element_type", lrrp_element_type)] ++ opt "lrrp_element_data" lrrp_element_data)).

(** motorola/motorola_binary_xml.py:54-55 [MotorolaBinaryXml.LrrpImmediateRequestNcdt._read] *)
Definition p_MotorolaBinaryXml_LrrpImmediateRequestNcdt : M pyval := obj "MotorolaBinaryXml.LrrpImmediateRequestNcdt" [
    ("elements", p_MotorolaBinaryXml_LrrpElement)].

(** motorola/motorola_binary_xml.py:101-105 [MotorolaBinaryXml.Sfloatvar._read] *)
Definition p_MotorolaBinaryXml_Sfloatvar : M pyval := obj "MotorolaBinaryXml.Sfloatvar" [
    ("sint_payload", p_MotorolaBinaryXml_Sintvar);
    ("fraction_payload", p_MotorolaBinaryXml_Uintvar)].

(** motorola/motorola_binary_xml.py:159-163 [MotorolaBinaryXml.Ufloatvar._read] *)
Definition p_MotorolaBinaryXml_Ufloatvar : M pyval := obj "MotorolaBinaryXml.Ufloatvar" [
    ("uint_payload", p_MotorolaBinaryXml_Uintvar);
    ("fraction_payload", p_MotorolaBinaryXml_Uintvar)].

(** motorola/motorola_binary_xml.py:186-197 [MotorolaBinaryXml.MbxmlDocument._read] *)
Definition p_MotorolaBinaryXml_MbxmlDocument : M pyval :=
    document_id <- venum MotorolaBinaryXml_Docids (read_u1 rt);;
    num_document_bytes <- p_MotorolaBinaryXml_Uintvar;;
    document_data <- (if eq_member MotorolaBinaryXml_Docids "lrrp_immediate_request_ncdt" document_id then some (p_MotorolaBinaryXml_LrrpImmediateRequestNcdt)
        else none);;
    ret (VObj "MotorolaBinaryXml.MbxmlDocument" ([("document_id", document_id); ("num_document_bytes", num_document_bytes)] ++ opt "document_data" document_data)).

(** motorola/motorola_binary_xml.py:37-45: [while True: ...; if not (self._io.is_eof()): break] *)
Fixpoint mbxml_documents (fuel : nat) : M (list pyval) :=
  match fuel with
  | O => fail OutOfFuel
  | S fuel' =>
      d <- p_MotorolaBinaryXml_MbxmlDocument;;
      eof <- is_eof rt;;
      if negb eof then ret [d] else l <- mbxml_documents fuel';; ret (d :: l)
  end.

(** motorola/motorola_binary_xml.py:37-45 [MotorolaBinaryXml._read] *)
Definition p_MotorolaBinaryXml : M pyval :=
    documents <- with_fuel mbxml_documents;;
    ret (VObj "MotorolaBinaryXml" [("documents", VList documents)]).

End Motorola.

(** * motorola/motorola_utils.py *)

(** motorola/motorola_utils.py:4-8 [uintvar_to_int] *)
Definition uintvar_to_int (payload : list Z) : Z :=
    fold_left (fun out single => Z.shiftl out 7 + Z.land single 0x7F) payload 0.

(** [bin(z)] without the "0b" prefix, for [z >= 0]: the binary digits, most significant first, no
    leading zeros; "0" for 0 *)
Fixpoint bin_pos (p : positive) : list bool :=
  match p with xH => [true] | xO q => bin_pos q ++ [false] | xI q => bin_pos q ++ [true] end.
Definition bin_digits (z : Z) : list bool := match z with Zpos p => bin_pos p | _ => [false] end.
(** [int(s, 2)] for a digit string *)
Definition int_base2 (l : list bool) : Z := fold_left (fun r d => 2 * r + Z.b2z d) l 0.

(** motorola/motorola_utils.py:11-12 [clear_msb], for non-negative arguments (the only ones passed):
    [bin(dirty)[3:]] drops "0b" and the first digit *)
Definition clear_msb (dirty : Z) : Z := int_base2 (false :: tl (bin_digits dirty)).

(** motorola/motorola_utils.py:15-20 [sintvar_to_int]; [payload[0]] of an empty list is an IndexError,
    which is not modelled: payloads of parsed objects are never empty *)
Definition sintvar_to_int (payload : list Z) : Z :=
    let out := clear_msb (uintvar_to_int payload) in
    let is_negative := 0 <? Z.land (hd 0 payload) 0x40 in
    if is_negative then - out else out.
