(** Specification of the motorola package.  The tables were taken from the format descriptions
    (okdmr/kaitai/motorola/*.ksy), not from the Python code. *)
From Verif Require Import PyBase Codec Spec DecSpec Enums.
Open Scope string_scope.
Open Scope list_scope.
Open Scope Z_scope.

(** A length byte followed by that many bytes; no attribute for the bytes if the length is 0. *)
Definition sized (len name : string) (b : bytes) (k : Z) : res (attrs * Z) :=
  if blen b <? k + 1 then Err EOFError else
  let n := ubits b (8 * k) 8 in
  let* x := bytes_at b (k + 1) n in
  Ok ((len, VInt n) :: (if n =? 0 then [] else [(name, VBytes x)]), k + 1 + n).

(** * motorola/automatic_registration_service.ksy *)

(** automatic_registration_service.ksy, type message_header_bits; 8 bits *)
Definition L_AutomaticRegistrationService_MessageHeaderBits : list field := [
    F "extension_bit" 0 KFlag;
    F "acknowledgement_bit" 1 KFlag;
    F "priority" 2 KFlag;
    F "control_user_bit" 3 KFlag;
    F "pdu_type" 4 (U 4)].

(** automatic_registration_service.ksy, type device_registration_message_header; 8 bits *)
Definition L_AutomaticRegistrationService_DeviceRegistrationMessageHeader : list field := [
    F "extension_bit" 0 KFlag;
    F "event" 1 (Enm AutomaticRegistrationService_RegistrationEvents 2);
    F "encoding" 3 (U 5)].

(** automatic_registration_service.ksy, type device_registration_acknowledgement_header; 8 bits *)
Definition L_AutomaticRegistrationService_DeviceRegistrationAcknowledgementHeader : list field := [
    F "extension_bit" 0 KFlag;
    F "refresh_time" 1 (U 7)].

(** automatic_registration_service.ksy, type device_registration_acknowledgement_failure_reason; 8 bits *)
Definition L_AutomaticRegistrationService_DeviceRegistrationAcknowledgementFailureReason : list field := [
    F "extension_bit" 0 KFlag;
    F "failure_reason" 1 (Enm AutomaticRegistrationService_FailureReasons 7)].

(** registration: optional header, then device identifier, user identifier and password *)
Definition ars_registration (ext : bool) : decoder := fun b k =>
  let* h := part "device_registration_message_header"
              (if ext then Some (table "AutomaticRegistrationService.DeviceRegistrationMessageHeader" L_AutomaticRegistrationService_DeviceRegistrationMessageHeader) else None) b k in
  let* d := sized "len_device_identifier" "device_identifier" b (snd h) in
  let* u := sized "len_user_identifier" "user_identifier" b (snd d) in
  let* p := sized "len_password" "password" b (snd u) in
  Ok (VObj "AutomaticRegistrationService.DeviceRegistrationMessage" (fst h ++ fst d ++ fst u ++ fst p), snd p).
(** acknowledgement: with the extension bit, one header byte; which one is told by the acknowledgement bit *)
Definition ars_acknowledgement (ext ack : bool) : decoder := fun b k =>
  let* h := if ext && ack then part "device_registration_acknowledgement_header"
                 (Some (table "AutomaticRegistrationService.DeviceRegistrationAcknowledgementHeader" L_AutomaticRegistrationService_DeviceRegistrationAcknowledgementHeader)) b k
            else if ext then part "device_registration_acknowledgement_failure_reason"
                 (Some (table "AutomaticRegistrationService.DeviceRegistrationAcknowledgementFailureReason" L_AutomaticRegistrationService_DeviceRegistrationAcknowledgementFailureReason)) b k
            else Ok ([], k) in
  Ok (VObj "AutomaticRegistrationService.AcknowledgementMessage" (fst h), snd h).
Definition ars_bodies (ext ack : bool) : list (Z * decoder) := [
    (0, ars_registration ext);
    (1, table "AutomaticRegistrationService.DeviceDeregistrationMessage" []);
    (4, table "AutomaticRegistrationService.ArsQueryMessage" []);
    (15, ars_acknowledgement ext ack)].
Definition L_AutomaticRegistrationService : list field := [
    F "message_size" 0 (LE 2);
    F "message_header" 16 (KSub 8 (object "AutomaticRegistrationService.MessageHeaderBits" L_AutomaticRegistrationService_MessageHeaderBits))].
Definition ars_spec (b : bytes) : res pyval :=
  let* h := fields b 0 L_AutomaticRegistrationService in
  let* d := part "pdu_content" (select (ubits b 20 4) (ars_bodies (bit b 16) (bit b 17))) b 3 in
  Ok (VObj "AutomaticRegistrationService" (h ++ fst d ++ [("unparsed_data", VBytes (rest b (snd d)))])).

(** * motorola/text_message_protocol.ksy *)

(** text_message_protocol.ksy, type message_header_bits; 8 bits *)
Definition L_MotTextMessageProtocol_MessageHeaderBits : list field := [
    F "extension_bit" 0 KFlag;
    F "acknowledgement_required" 1 KFlag;
    F "reserved" 2 KFlag;
    F "control_user_bit" 3 KFlag;
    F "pdu_type" 4 (U 4)].

(** text_message_protocol.ksy, type tms_service_availability_header; 8 bits *)
Definition L_MotTextMessageProtocol_TmsServiceAvailabilityHeader : list field := [
    F "extension_bit" 0 KFlag;
    F "reserved" 1 (U 4);
    F "device" 5 (Enm MotTextMessageProtocol_TmsServiceCapability 3)].

(** header of an acknowledgement: one byte, or two if the first bit is set *)
Definition L_mot_ack_header (two : bool) : list field := [
    F "has_msb_header" 0 KFlag;
    F "header_lsb_reserved" 1 (U 2);
    F "header_lsb_bits" 3 (U 5)] ++
    (if two then [
    F "header_msb_extension" 8 KFlag;
    F "header_msb_bits" 9 (U 2);
    F "header_msb_reserved" 11 (U 5)] else []).
(** header of a text message: two bytes.  If the first bit is clear, the five bits of the encoding
    directly follow the first byte and three bits are not used *)
Definition L_mot_text_header (enc : bool) : list field := [
    F "has_encoding_header" 0 KFlag;
    F "reserved_1" 1 (U 2);
    F "sequence_number_lsb_bits" 3 (U 5)] ++
    (if enc then [
    F "header_encoding_extension" 8 KFlag;
    F "sequence_number_msb_bits" 9 (U 2);
    F "encoding" 11 (U 5)] else [
    F "encoding" 8 (U 5)]).
Definition mot_availability (ext : bool) : decoder := fun b k =>
  let* h := part "header" (if ext then Some (table "TextMessageProtocol.TmsServiceAvailabilityHeader" L_MotTextMessageProtocol_TmsServiceAvailabilityHeader) else None) b k in
  Ok (VObj "TextMessageProtocol.TmsServiceAvailability" (fst h), snd h).
Definition mot_acknowledgement (ext : bool) : decoder := fun b k =>
  let* h := part "tms_acknowledgement_header_sequence_number"
     (if ext then Some (table "TextMessageProtocol.TmsAcknowledgementHeaderSequenceNumber" (L_mot_ack_header (bit b (8 * k)))) else None) b k in
  Ok (VObj "TextMessageProtocol.TmsAcknowledgement" (fst h), snd h).
(** the text is everything after the header *)
Definition mot_text (ext : bool) : decoder := fun b k =>
  let* h := if ext then
      let* a := fields b k (L_mot_text_header (bit b (8 * k))) in
      Ok ([("text_message_header_sequence_and_encoding", VObj "TextMessageProtocol.TextMessageHeaderSequenceAndEncoding" a)], k + 2)
    else Ok ([], k) in
  match decode_text UTF16LE (rest b (snd h)) with
  | Some s => Ok (VObj "TextMessageProtocol.TextMessage" (fst h ++ [("text_message", VStr s)]), blen b)
  | None => Err (UnicodeDecodeError (enc_name UTF16LE))
  end.
(** 6-bit content type: acknowledgement required, control/user, pdu type *)
Definition mot_type (b : bytes) : Z := 32 * ubits b 17 1 + 16 * ubits b 19 1 + ubits b 20 4.
Definition mot_bodies (ext : bool) : list (Z * decoder) := [
    (48, mot_availability ext);
    (31, mot_acknowledgement ext);
    (0, mot_text ext);
    (32, mot_text ext)].
Definition L_MotTextMessageProtocol : list field := [
    F "message_size" 0 (U 16);
    F "message_header" 16 (KSub 8 (object "TextMessageProtocol.MessageHeaderBits" L_MotTextMessageProtocol_MessageHeaderBits))].
Definition mot_tmp_spec (b : bytes) : res pyval :=
  let* h := fields b 0 L_MotTextMessageProtocol in
  let* a := sized "len_address" "address" b 3 in
  let* d := part "pdu_content" (select (mot_type b) (mot_bodies (bit b 16))) b (snd a) in
  Ok (VObj "TextMessageProtocol" (h ++ fst a ++ [("_m_custom_pdu_type", VInt (mot_type b))] ++ fst d ++ [("unparsed_data", VBytes (rest b (snd d)))])).

(** * motorola/motorola_binary_xml.ksy *)

(** motorola_binary_xml.ksy, type opaque_1byte_value; 8 bits *)
Definition L_MotorolaBinaryXml_Opaque1byteValue : list field := [
    F "value" 0 (KBytes 1)].

(** motorola_binary_xml.ksy, type opaque_2byte_value; 16 bits *)
Definition L_MotorolaBinaryXml_Opaque2byteValue : list field := [
    F "value" 0 (KBytes 2)].

(** motorola_binary_xml.ksy, type opaque_3byte_value; 24 bits *)
Definition L_MotorolaBinaryXml_Opaque3byteValue : list field := [
    F "value" 0 (KBytes 3)].

(** motorola_binary_xml.ksy, type opaque_4byte_value; 32 bits *)
Definition L_MotorolaBinaryXml_Opaque4byteValue : list field := [
    F "value" 0 (KBytes 4)].

(** motorola_binary_xml.ksy, type opaque_5byte_value; 40 bits *)
Definition L_MotorolaBinaryXml_Opaque5byteValue : list field := [
    F "value" 0 (KBytes 5)].

(** A variable length number: up to and including the first byte without continue flag (0x80); the
    end of the packet also ends it. *)
Fixpoint var_bytes (l : bytes) : bytes :=
  match l with
  | [] => []
  | x :: l' => if bz x <? 128 then [x] else x :: var_bytes l'
  end.
Definition var_at (cls : string) : decoder := fun b k =>
  if blen b <=? k then Err EOFError else
  let p := var_bytes (rest b k) in
  Ok (VObj cls [("payload", VList (map (fun x => VInt (bz x)) p))], k + blen p).
Definition uintvar_at : decoder := var_at "MotorolaBinaryXml.Uintvar".
Definition sintvar_at : decoder := var_at "MotorolaBinaryXml.Sintvar".
Definition two_vars (cls n1 n2 : string) (f1 f2 : decoder) : decoder := fun b k =>
  let* x := f1 b k in let* y := f2 b (snd x) in Ok (VObj cls [(n1, fst x); (n2, fst y)], snd y).
Definition ufloatvar_at : decoder := two_vars "MotorolaBinaryXml.Ufloatvar" "uint_payload" "fraction_payload" uintvar_at uintvar_at.
Definition sfloatvar_at : decoder := two_vars "MotorolaBinaryXml.Sfloatvar" "sint_payload" "fraction_payload" sintvar_at uintvar_at.
Definition opaque_at : decoder := fun b k =>
  if blen b <? k + 1 then Err EOFError else
  let n := ubits b (8 * k) 8 in
  let* x := bytes_at b (k + 1) n in
  Ok (VObj "MotorolaBinaryXml.OpaqueElementValue" [("len_value", VInt n); ("value", VBytes x)], k + 1 + n).
Definition cdt_reference_at : decoder := fun b k =>
  let* x := uintvar_at b k in
  Ok (VObj "MotorolaBinaryXml.ConstantDataTableReference" [("byte_offset_from_cdt_start", fst x)], snd x).
Definition lrrp_element_at : decoder := fun b k =>
  let* h := fields b k [F "lrrp_element_type" 0 (Enm MotorolaBinaryXml_LrrpElements 8)] in
  let* d := part "lrrp_element_data" (select (ubits b (8 * k) 8) [
      (0x22, opaque_at); (0x23, table "MotorolaBinaryXml.Opaque1byteValue" L_MotorolaBinaryXml_Opaque1byteValue); (0x24, cdt_reference_at)]) b (k + 1) in
  Ok (VObj "MotorolaBinaryXml.LrrpElement" (h ++ fst d), snd d).
Definition lrrp_request_at : decoder := fun b k =>
  let* x := lrrp_element_at b k in Ok (VObj "MotorolaBinaryXml.LrrpImmediateRequestNcdt" [("elements", fst x)], snd x).
Definition document_at : decoder := fun b k =>
  let* h := fields b k [F "document_id" 0 (Enm MotorolaBinaryXml_Docids 8)] in
  let* n := uintvar_at b (k + 1) in
  let* d := part "document_data" (if ubits b (8 * k) 8 =? 0x05 then Some lrrp_request_at else None) b (snd n) in
  Ok (VObj "MotorolaBinaryXml.MbxmlDocument" (h ++ [("num_document_bytes", fst n)] ++ fst d), snd d).

(** What the format description means: documents one after the other until the end. *)
Inductive documents (b : bytes) : Z -> res (list pyval) -> Prop :=
| documents_last k d e : document_at b k = Ok (d, e) -> e = blen b -> documents b k (Ok [d])
| documents_more k d e r : document_at b k = Ok (d, e) -> e < blen b -> documents b e r -> documents b k (rmap (cons d) r)
| documents_bad k x : document_at b k = Err x -> documents b k (Err x).

(** What is implemented: one document, which must not be the end of the packet. *)
Definition mbxml_spec (b : bytes) : res pyval :=
  let* d := document_at b 0 in
  if snd d <? blen b then Ok (VObj "MotorolaBinaryXml" [("documents", VList [fst d])]) else Err EOFError.

(** * Variable length numbers (motorola_binary_xml.ksy docs) *)
(** value of a payload: the low seven bits of each byte are a base-128 digit, first digit most significant *)
Definition base128 (l : list Z) : Z := fold_left (fun r x => 128 * r + x mod 128) l 0.
