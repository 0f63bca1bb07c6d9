(** Importing the repository's modules.  (Model for C62.)

    What CPython does on [import]: look the module up in [sys.modules]; if it is not there, enter it (empty) and execute its body; if
    the body raises, take it out again.  A module that is still being executed is found in [sys.modules] with the names bound so far.
    The packages [okdmr.kaitai.{etsi,homebrew,hytera,motorola,tools}] have empty [__init__.py] files ([okdmr] and [okdmr.kaitai] have
    none), so importing them executes nothing: they are left out.  Modules outside the repository are taken to be importable, with the
    names asked for; the runtime's version is a parameter. *)
From Coq Require Import ZArith List String Bool.
Import ListNotations.
Open Scope string_scope.
Open Scope list_scope.
Open Scope Z_scope.

(** The statements at the top level of a module, and what they do with names.  [Define x uses]: a class or function [x] whose definition
    evaluates the names [uses] (base classes, those of nested classes, annotations, decorators; Python's builtins left out). *)
Inductive stmt :=
| External (m : string) (names : list string)      (** [import m] or [from m import names], [m] outside the repository *)
| Check                                            (** [if getattr(kaitaistruct, "API_VERSION", (0, 9)) < (0, 9): raise Exception(...)] *)
| FromPackage (p sub : string)                     (** [from p import sub], [p.sub] a module *)
| FromModule (m : string) (names : list string)    (** [from m import names] *)
| Define (x : string) (uses : list string).
(** [f_late]: the global names the functions and methods of the module use when they are called; [f_late_attrs]: the attributes of
    imported modules they use. *)
Record file := { f_name : string; f_body : list stmt; f_late : list string; f_late_attrs : list (string * string) }.

(** okdmr/kaitai/etsi/dmr_csbk.py:1-15 *)
Definition M_etsi_dmr_csbk : file := {| f_name := "okdmr.kaitai.etsi.dmr_csbk"; f_body := [External "kaitaistruct" ["kaitaistruct"]; External "kaitaistruct" ["KaitaiStruct"; "KaitaiStream"; "BytesIO"]; External "enum" ["Enum"]; Check; Define "DmrCsbk" ["KaitaiStruct"; "Enum"]];
  f_late := ["KaitaiStream"; "DmrCsbk"]; f_late_attrs := [] |}.
(** okdmr/kaitai/etsi/dmr_data.py:1-14 *)
Definition M_etsi_dmr_data : file := {| f_name := "okdmr.kaitai.etsi.dmr_data"; f_body := [External "kaitaistruct" ["kaitaistruct"]; External "kaitaistruct" ["KaitaiStruct"; "KaitaiStream"; "BytesIO"]; Check; Define "DmrData" ["KaitaiStruct"]];
  f_late := []; f_late_attrs := [] |}.
(** okdmr/kaitai/etsi/dmr_data_header.py:1-15 *)
Definition M_etsi_dmr_data_header : file := {| f_name := "okdmr.kaitai.etsi.dmr_data_header"; f_body := [External "kaitaistruct" ["kaitaistruct"]; External "kaitaistruct" ["KaitaiStruct"; "KaitaiStream"; "BytesIO"]; External "enum" ["Enum"]; Check; Define "DmrDataHeader" ["KaitaiStruct"; "Enum"]];
  f_late := ["KaitaiStream"; "DmrDataHeader"; "BytesIO"]; f_late_attrs := [] |}.
(** okdmr/kaitai/etsi/dmr_ip_udp.py:1-15 *)
Definition M_etsi_dmr_ip_udp : file := {| f_name := "okdmr.kaitai.etsi.dmr_ip_udp"; f_body := [External "kaitaistruct" ["kaitaistruct"]; External "kaitaistruct" ["KaitaiStruct"; "KaitaiStream"; "BytesIO"]; External "enum" ["Enum"]; Check; Define "DmrIpUdp" ["KaitaiStruct"; "Enum"]];
  f_late := ["KaitaiStream"; "DmrIpUdp"]; f_late_attrs := [] |}.
(** okdmr/kaitai/etsi/full_link_control.py:1-15 *)
Definition M_etsi_full_link_control : file := {| f_name := "okdmr.kaitai.etsi.full_link_control"; f_body := [External "kaitaistruct" ["kaitaistruct"]; External "kaitaistruct" ["KaitaiStruct"; "KaitaiStream"; "BytesIO"]; External "enum" ["Enum"]; Check; Define "FullLinkControl" ["KaitaiStruct"; "Enum"]];
  f_late := ["KaitaiStream"; "FullLinkControl"]; f_late_attrs := [] |}.
(** okdmr/kaitai/homebrew/homebrew2015.py:1-15 *)
Definition M_homebrew_homebrew2015 : file := {| f_name := "okdmr.kaitai.homebrew.homebrew2015"; f_body := [External "kaitaistruct" ["kaitaistruct"]; External "kaitaistruct" ["KaitaiStruct"; "KaitaiStream"; "BytesIO"]; External "enum" ["Enum"]; Check; Define "Homebrew2015" ["KaitaiStruct"; "Enum"]];
  f_late := ["Homebrew2015"; "kaitaistruct"; "KaitaiStream"]; f_late_attrs := [] |}.
(** okdmr/kaitai/homebrew/mmdvm2020.py:1-15 *)
Definition M_homebrew_mmdvm2020 : file := {| f_name := "okdmr.kaitai.homebrew.mmdvm2020"; f_body := [External "kaitaistruct" ["kaitaistruct"]; External "kaitaistruct" ["KaitaiStruct"; "KaitaiStream"; "BytesIO"]; External "enum" ["Enum"]; Check; Define "Mmdvm2020" ["KaitaiStruct"; "Enum"]];
  f_late := ["Mmdvm2020"; "kaitaistruct"; "KaitaiStream"]; f_late_attrs := [] |}.
(** okdmr/kaitai/hytera/data_delivery_states.py:1-17 *)
Definition M_hytera_data_delivery_states : file := {| f_name := "okdmr.kaitai.hytera.data_delivery_states"; f_body := [External "kaitaistruct" ["kaitaistruct"]; External "kaitaistruct" ["KaitaiStruct"; "KaitaiStream"; "BytesIO"]; External "enum" ["Enum"]; Check; FromPackage "okdmr.kaitai.hytera" "radio_ip"; Define "DataDeliveryStates" ["KaitaiStruct"; "Enum"]];
  f_late := ["KaitaiStream"; "DataDeliveryStates"; "radio_ip"]; f_late_attrs := [("radio_ip", "RadioIp")] |}.
(** okdmr/kaitai/hytera/data_transmit_protocol.py:1-17 *)
Definition M_hytera_data_transmit_protocol : file := {| f_name := "okdmr.kaitai.hytera.data_transmit_protocol"; f_body := [External "kaitaistruct" ["kaitaistruct"]; External "kaitaistruct" ["KaitaiStruct"; "KaitaiStream"; "BytesIO"]; External "enum" ["Enum"]; Check; FromPackage "okdmr.kaitai.hytera" "radio_ip"; Define "DataTransmitProtocol" ["KaitaiStruct"; "Enum"]];
  f_late := ["KaitaiStream"; "DataTransmitProtocol"; "radio_ip"]; f_late_attrs := [("radio_ip", "RadioIp")] |}.
(** okdmr/kaitai/hytera/datetimestring.py:1-14 *)
Definition M_hytera_datetimestring : file := {| f_name := "okdmr.kaitai.hytera.datetimestring"; f_body := [External "kaitaistruct" ["kaitaistruct"]; External "kaitaistruct" ["KaitaiStruct"; "KaitaiStream"; "BytesIO"]; Check; Define "Datetimestring" ["KaitaiStruct"]];
  f_late := []; f_late_attrs := [] |}.
(** okdmr/kaitai/hytera/gpsdata.py:1-14 *)
Definition M_hytera_gpsdata : file := {| f_name := "okdmr.kaitai.hytera.gpsdata"; f_body := [External "kaitaistruct" ["kaitaistruct"]; External "kaitaistruct" ["KaitaiStruct"; "KaitaiStream"; "BytesIO"]; Check; Define "Gpsdata" ["KaitaiStruct"]];
  f_late := []; f_late_attrs := [] |}.
(** okdmr/kaitai/hytera/hytera_dmr_application_protocol.py:1-23 *)
Definition M_hytera_hytera_dmr_application_protocol : file := {| f_name := "okdmr.kaitai.hytera.hytera_dmr_application_protocol"; f_body := [External "kaitaistruct" ["kaitaistruct"]; External "kaitaistruct" ["KaitaiStruct"; "KaitaiStream"; "BytesIO"]; External "enum" ["Enum"]; Check; FromPackage "okdmr.kaitai.hytera" "data_transmit_protocol"; FromPackage "okdmr.kaitai.hytera" "radio_control_protocol"; FromPackage "okdmr.kaitai.hytera" "telemetry_protocol"; FromPackage "okdmr.kaitai.hytera" "location_protocol"; FromPackage "okdmr.kaitai.hytera" "text_message_protocol"; FromPackage "okdmr.kaitai.hytera" "data_delivery_states"; FromPackage "okdmr.kaitai.hytera" "radio_registration_service"; Define "HyteraDmrApplicationProtocol" ["KaitaiStruct"; "Enum"]];
  f_late := ["KaitaiStream"; "HyteraDmrApplicationProtocol"; "radio_registration_service"; "telemetry_protocol"; "radio_control_protocol"; "text_message_protocol"; "data_delivery_states"; "location_protocol"; "data_transmit_protocol"; "kaitaistruct"]; f_late_attrs := [("radio_registration_service", "RadioRegistrationService"); ("telemetry_protocol", "TelemetryProtocol"); ("radio_control_protocol", "RadioControlProtocol"); ("text_message_protocol", "TextMessageProtocol"); ("data_delivery_states", "DataDeliveryStates"); ("location_protocol", "LocationProtocol"); ("data_transmit_protocol", "DataTransmitProtocol")] |}.
(** okdmr/kaitai/hytera/hytera_radio_network_protocol.py:1-17 *)
Definition M_hytera_hytera_radio_network_protocol : file := {| f_name := "okdmr.kaitai.hytera.hytera_radio_network_protocol"; f_body := [External "kaitaistruct" ["kaitaistruct"]; External "kaitaistruct" ["KaitaiStruct"; "KaitaiStream"; "BytesIO"]; External "enum" ["Enum"]; Check; FromPackage "okdmr.kaitai.hytera" "hytera_dmr_application_protocol"; Define "HyteraRadioNetworkProtocol" ["KaitaiStruct"; "Enum"]];
  f_late := ["kaitaistruct"; "KaitaiStream"; "HyteraRadioNetworkProtocol"; "hytera_dmr_application_protocol"]; f_late_attrs := [("hytera_dmr_application_protocol", "HyteraDmrApplicationProtocol")] |}.
(** okdmr/kaitai/hytera/hytera_simple_transport_reliability_protocol.py:1-17 *)
Definition M_hytera_hytera_simple_transport_reliability_protocol : file := {| f_name := "okdmr.kaitai.hytera.hytera_simple_transport_reliability_protocol"; f_body := [External "kaitaistruct" ["kaitaistruct"]; External "kaitaistruct" ["KaitaiStruct"; "KaitaiStream"; "BytesIO"]; External "enum" ["Enum"]; Check; FromPackage "okdmr.kaitai.hytera" "hytera_dmr_application_protocol"; Define "HyteraSimpleTransportReliabilityProtocol" ["KaitaiStruct"; "Enum"]];
  f_late := ["kaitaistruct"; "HyteraSimpleTransportReliabilityProtocol"; "hytera_dmr_application_protocol"; "KaitaiStream"]; f_late_attrs := [("hytera_dmr_application_protocol", "HyteraDmrApplicationProtocol")] |}.
(** okdmr/kaitai/hytera/intervalstring.py:1-14 *)
Definition M_hytera_intervalstring : file := {| f_name := "okdmr.kaitai.hytera.intervalstring"; f_body := [External "kaitaistruct" ["kaitaistruct"]; External "kaitaistruct" ["KaitaiStruct"; "KaitaiStream"; "BytesIO"]; Check; Define "Intervalstring" ["KaitaiStruct"]];
  f_late := []; f_late_attrs := [] |}.
(** okdmr/kaitai/hytera/ip_site_connect_heartbeat.py:1-14 *)
Definition M_hytera_ip_site_connect_heartbeat : file := {| f_name := "okdmr.kaitai.hytera.ip_site_connect_heartbeat"; f_body := [External "kaitaistruct" ["kaitaistruct"]; External "kaitaistruct" ["KaitaiStruct"; "KaitaiStream"; "BytesIO"]; Check; Define "IpSiteConnectHeartbeat" ["KaitaiStruct"]];
  f_late := ["IpSiteConnectHeartbeat"; "kaitaistruct"]; f_late_attrs := [] |}.
(** okdmr/kaitai/hytera/ip_site_connect_protocol.py:1-15 *)
Definition M_hytera_ip_site_connect_protocol : file := {| f_name := "okdmr.kaitai.hytera.ip_site_connect_protocol"; f_body := [External "kaitaistruct" ["kaitaistruct"]; External "kaitaistruct" ["KaitaiStruct"; "KaitaiStream"; "BytesIO"]; External "enum" ["Enum"]; Check; Define "IpSiteConnectProtocol" ["KaitaiStruct"; "Enum"]];
  f_late := ["kaitaistruct"; "KaitaiStream"; "IpSiteConnectProtocol"]; f_late_attrs := [] |}.
(** okdmr/kaitai/hytera/location_protocol.py:1-20 *)
Definition M_hytera_location_protocol : file := {| f_name := "okdmr.kaitai.hytera.location_protocol"; f_body := [External "kaitaistruct" ["kaitaistruct"]; External "kaitaistruct" ["KaitaiStruct"; "KaitaiStream"; "BytesIO"]; External "enum" ["Enum"]; Check; FromPackage "okdmr.kaitai.hytera" "radio_ip"; FromPackage "okdmr.kaitai.hytera" "gpsdata"; FromPackage "okdmr.kaitai.hytera" "datetimestring"; FromPackage "okdmr.kaitai.hytera" "intervalstring"; Define "LocationProtocol" ["KaitaiStruct"; "Enum"]];
  f_late := ["KaitaiStream"; "LocationProtocol"; "radio_ip"; "datetimestring"; "intervalstring"; "gpsdata"]; f_late_attrs := [("radio_ip", "RadioIp"); ("datetimestring", "Datetimestring"); ("intervalstring", "Intervalstring"); ("gpsdata", "Gpsdata")] |}.
(** okdmr/kaitai/hytera/radio_control_protocol.py:1-15 *)
Definition M_hytera_radio_control_protocol : file := {| f_name := "okdmr.kaitai.hytera.radio_control_protocol"; f_body := [External "kaitaistruct" ["kaitaistruct"]; External "kaitaistruct" ["KaitaiStruct"; "KaitaiStream"; "BytesIO"]; External "enum" ["Enum"]; Check; Define "RadioControlProtocol" ["KaitaiStruct"; "Enum"]];
  f_late := ["KaitaiStream"; "RadioControlProtocol"]; f_late_attrs := [] |}.
(** okdmr/kaitai/hytera/radio_id.py:1-14 *)
Definition M_hytera_radio_id : file := {| f_name := "okdmr.kaitai.hytera.radio_id"; f_body := [External "kaitaistruct" ["kaitaistruct"]; External "kaitaistruct" ["KaitaiStruct"; "KaitaiStream"; "BytesIO"]; Check; Define "RadioId" ["KaitaiStruct"]];
  f_late := []; f_late_attrs := [] |}.
(** okdmr/kaitai/hytera/radio_ip.py:1-14 *)
Definition M_hytera_radio_ip : file := {| f_name := "okdmr.kaitai.hytera.radio_ip"; f_body := [External "kaitaistruct" ["kaitaistruct"]; External "kaitaistruct" ["KaitaiStruct"; "KaitaiStream"; "BytesIO"]; Check; Define "RadioIp" ["KaitaiStruct"]];
  f_late := []; f_late_attrs := [] |}.
(** okdmr/kaitai/hytera/radio_registration_service.py:1-17 *)
Definition M_hytera_radio_registration_service : file := {| f_name := "okdmr.kaitai.hytera.radio_registration_service"; f_body := [External "kaitaistruct" ["kaitaistruct"]; External "kaitaistruct" ["KaitaiStruct"; "KaitaiStream"; "BytesIO"]; External "enum" ["Enum"]; Check; FromPackage "okdmr.kaitai.hytera" "radio_ip"; Define "RadioRegistrationService" ["KaitaiStruct"; "Enum"]];
  f_late := ["kaitaistruct"; "KaitaiStream"; "RadioRegistrationService"; "radio_ip"]; f_late_attrs := [("radio_ip", "RadioIp")] |}.
(** okdmr/kaitai/hytera/real_time_transport_protocol.py:1-17 *)
Definition M_hytera_real_time_transport_protocol : file := {| f_name := "okdmr.kaitai.hytera.real_time_transport_protocol"; f_body := [External "kaitaistruct" ["kaitaistruct"]; External "kaitaistruct" ["KaitaiStruct"; "KaitaiStream"; "BytesIO"]; External "enum" ["Enum"]; Check; FromPackage "okdmr.kaitai.hytera" "radio_id"; Define "RealTimeTransportProtocol" ["KaitaiStruct"; "Enum"]];
  f_late := ["RealTimeTransportProtocol"; "kaitaistruct"; "radio_id"; "KaitaiStream"]; f_late_attrs := [("radio_id", "RadioId")] |}.
(** okdmr/kaitai/hytera/telemetry_protocol.py:1-17 *)
Definition M_hytera_telemetry_protocol : file := {| f_name := "okdmr.kaitai.hytera.telemetry_protocol"; f_body := [External "kaitaistruct" ["kaitaistruct"]; External "kaitaistruct" ["KaitaiStruct"; "KaitaiStream"; "BytesIO"]; External "enum" ["Enum"]; Check; FromPackage "okdmr.kaitai.hytera" "radio_ip"; Define "TelemetryProtocol" ["KaitaiStruct"; "Enum"]];
  f_late := ["KaitaiStream"; "TelemetryProtocol"; "radio_ip"]; f_late_attrs := [("radio_ip", "RadioIp")] |}.
(** okdmr/kaitai/hytera/text_message_protocol.py:1-17 *)
Definition M_hytera_text_message_protocol : file := {| f_name := "okdmr.kaitai.hytera.text_message_protocol"; f_body := [External "kaitaistruct" ["kaitaistruct"]; External "kaitaistruct" ["KaitaiStruct"; "KaitaiStream"; "BytesIO"]; External "enum" ["Enum"]; Check; FromPackage "okdmr.kaitai.hytera" "radio_ip"; Define "TextMessageProtocol" ["KaitaiStruct"; "Enum"]];
  f_late := ["KaitaiStream"; "TextMessageProtocol"; "radio_ip"]; f_late_attrs := [("radio_ip", "RadioIp")] |}.
(** okdmr/kaitai/motorola/automatic_registration_service.py:1-15 *)
Definition M_motorola_automatic_registration_service : file := {| f_name := "okdmr.kaitai.motorola.automatic_registration_service"; f_body := [External "kaitaistruct" ["kaitaistruct"]; External "kaitaistruct" ["KaitaiStruct"; "KaitaiStream"; "BytesIO"]; External "enum" ["Enum"]; Check; Define "AutomaticRegistrationService" ["KaitaiStruct"; "Enum"]];
  f_late := ["AutomaticRegistrationService"; "KaitaiStream"]; f_late_attrs := [] |}.
(** okdmr/kaitai/motorola/motorola_binary_xml.py:1-15 *)
Definition M_motorola_motorola_binary_xml : file := {| f_name := "okdmr.kaitai.motorola.motorola_binary_xml"; f_body := [External "kaitaistruct" ["kaitaistruct"]; External "kaitaistruct" ["KaitaiStruct"; "KaitaiStream"; "BytesIO"]; External "enum" ["Enum"]; Check; Define "MotorolaBinaryXml" ["KaitaiStruct"; "Enum"]];
  f_late := ["MotorolaBinaryXml"; "KaitaiStream"]; f_late_attrs := [] |}.
(** okdmr/kaitai/motorola/motorola_utils.py:1-29 *)
Definition M_motorola_motorola_utils : file := {| f_name := "okdmr.kaitai.motorola.motorola_utils"; f_body := [External "typing" ["List"]; Define "uintvar_to_int" ["List"]; Define "clear_msb" []; Define "sintvar_to_int" ["List"]; Define "ufloatvar_to_float" ["List"]; Define "sfloatvar_to_float" ["List"]];
  f_late := ["clear_msb"; "uintvar_to_int"]; f_late_attrs := [] |}.
(** okdmr/kaitai/motorola/text_message_protocol.py:1-15 *)
Definition M_motorola_text_message_protocol : file := {| f_name := "okdmr.kaitai.motorola.text_message_protocol"; f_body := [External "kaitaistruct" ["kaitaistruct"]; External "kaitaistruct" ["KaitaiStruct"; "KaitaiStream"; "BytesIO"]; External "enum" ["Enum"]; Check; Define "TextMessageProtocol" ["KaitaiStruct"; "Enum"]];
  f_late := ["TextMessageProtocol"; "KaitaiStream"]; f_late_attrs := [] |}.
(** okdmr/kaitai/tools/byteswap.py:1-10 *)
Definition M_tools_byteswap : file := {| f_name := "okdmr.kaitai.tools.byteswap"; f_body := [Define "byteswap_bytearray" []; Define "byteswap_bytes" []];
  f_late := ["byteswap_bytearray"]; f_late_attrs := [] |}.
(** okdmr/kaitai/tools/debug.py:1-11 *)
Definition M_tools_debug : file := {| f_name := "okdmr.kaitai.tools.debug"; f_body := [External "sys" ["sys"]; External "argparse" ["ArgumentParser"]; External "typing" ["Type"; "Optional"; "List"]; External "kaitaistruct" ["KaitaiStruct"]; FromModule "okdmr.kaitai.hytera.ip_site_connect_protocol" ["IpSiteConnectProtocol"]; FromModule "okdmr.kaitai.tools.byteswap" ["byteswap_bytes"]; FromModule "okdmr.kaitai.tools.prettyprint" ["prettyprint"]; Define "ProtocolDebug" ["ArgumentParser"; "Type"; "KaitaiStruct"; "Optional"; "List"]];
  f_late := ["ArgumentParser"; "ProtocolDebug"; "sys"; "IpSiteConnectProtocol"; "prettyprint"; "byteswap_bytes"]; f_late_attrs := [] |}.
(** okdmr/kaitai/tools/debug_homebrew.py:1-6 *)
Definition M_tools_debug_homebrew : file := {| f_name := "okdmr.kaitai.tools.debug_homebrew"; f_body := [FromModule "okdmr.kaitai.homebrew.homebrew2015" ["Homebrew2015"]; FromModule "okdmr.kaitai.homebrew.mmdvm2020" ["Mmdvm2020"]; FromModule "okdmr.kaitai.tools.debug" ["ProtocolDebug"]; Define "DebugHomebrew" ["ProtocolDebug"]];
  f_late := ["DebugHomebrew"; "Homebrew2015"; "Mmdvm2020"]; f_late_attrs := [] |}.
(** okdmr/kaitai/tools/debug_hytera.py:1-19 *)
Definition M_tools_debug_hytera : file := {| f_name := "okdmr.kaitai.tools.debug_hytera"; f_body := [FromModule "okdmr.kaitai.hytera.data_delivery_states" ["DataDeliveryStates"]; FromModule "okdmr.kaitai.hytera.data_transmit_protocol" ["DataTransmitProtocol"]; FromModule "okdmr.kaitai.hytera.hytera_dmr_application_protocol" ["HyteraDmrApplicationProtocol"]; FromModule "okdmr.kaitai.hytera.hytera_radio_network_protocol" ["HyteraRadioNetworkProtocol"]; FromModule "okdmr.kaitai.hytera.hytera_simple_transport_reliability_protocol" ["HyteraSimpleTransportReliabilityProtocol"]; FromModule "okdmr.kaitai.hytera.ip_site_connect_protocol" ["IpSiteConnectProtocol"]; FromModule "okdmr.kaitai.hytera.location_protocol" ["LocationProtocol"]; FromModule "okdmr.kaitai.hytera.radio_control_protocol" ["RadioControlProtocol"]; FromModule "okdmr.kaitai.hytera.radio_registration_service" ["RadioRegistrationService"]; FromModule "okdmr.kaitai.hytera.telemetry_protocol" ["TelemetryProtocol"]; FromModule "okdmr.kaitai.hytera.text_message_protocol" ["TextMessageProtocol"]; FromModule "okdmr.kaitai.tools.debug" ["ProtocolDebug"]; Define "DebugHytera" ["ProtocolDebug"]];
  f_late := ["DebugHytera"; "RadioRegistrationService"; "TextMessageProtocol"; "IpSiteConnectProtocol"; "RadioControlProtocol"; "DataDeliveryStates"; "HyteraDmrApplicationProtocol"; "HyteraRadioNetworkProtocol"; "HyteraSimpleTransportReliabilityProtocol"; "LocationProtocol"; "DataTransmitProtocol"; "TelemetryProtocol"]; f_late_attrs := [] |}.
(** okdmr/kaitai/tools/debug_motorola.py:1-8 *)
Definition M_tools_debug_motorola : file := {| f_name := "okdmr.kaitai.tools.debug_motorola"; f_body := [FromModule "okdmr.kaitai.motorola.automatic_registration_service" ["AutomaticRegistrationService"]; FromModule "okdmr.kaitai.motorola.text_message_protocol" ["TextMessageProtocol"]; FromModule "okdmr.kaitai.tools.debug" ["ProtocolDebug"]; Define "DebugMotorola" ["ProtocolDebug"]];
  f_late := ["DebugMotorola"; "AutomaticRegistrationService"; "TextMessageProtocol"]; f_late_attrs := [] |}.
(** okdmr/kaitai/tools/prettyprint.py:1-23 *)
Definition M_tools_prettyprint : file := {| f_name := "okdmr.kaitai.tools.prettyprint"; f_body := [External "pprint" ["pprint"]; External "kaitaistruct" ["KaitaiStruct"]; Define "prettyprint" ["KaitaiStruct"]; Define "_array_prettyprint" []; Define "_prettyprint" ["KaitaiStruct"]];
  f_late := ["pprint"; "_prettyprint"; "KaitaiStruct"; "_array_prettyprint"]; f_late_attrs := [] |}.
Definition files : list file :=
  [M_etsi_dmr_csbk; M_etsi_dmr_data; M_etsi_dmr_data_header; M_etsi_dmr_ip_udp; M_etsi_full_link_control; M_homebrew_homebrew2015; M_homebrew_mmdvm2020; M_hytera_data_delivery_states; M_hytera_data_transmit_protocol; M_hytera_datetimestring; M_hytera_gpsdata; M_hytera_hytera_dmr_application_protocol; M_hytera_hytera_radio_network_protocol; M_hytera_hytera_simple_transport_reliability_protocol; M_hytera_intervalstring; M_hytera_ip_site_connect_heartbeat; M_hytera_ip_site_connect_protocol; M_hytera_location_protocol; M_hytera_radio_control_protocol; M_hytera_radio_id; M_hytera_radio_ip; M_hytera_radio_registration_service; M_hytera_real_time_transport_protocol; M_hytera_telemetry_protocol; M_hytera_text_message_protocol; M_motorola_automatic_registration_service; M_motorola_motorola_binary_xml; M_motorola_motorola_utils; M_motorola_text_message_protocol; M_tools_byteswap; M_tools_debug; M_tools_debug_homebrew; M_tools_debug_hytera; M_tools_debug_motorola; M_tools_prettyprint].

(** Python's [<] on tuples of integers *)
Fixpoint tuple_lt (a b : list Z) : bool :=
  match a, b with
  | [], [] => false
  | [], _ :: _ => true
  | _ :: _, [] => false
  | x :: a, y :: b => if x =? y then tuple_lt a b else x <? y
  end.

(** What a name is bound to: a module of the repository, or something else *)
Inductive target := Module (m : string) | Other.
Definition names := list (string * target).
Fixpoint bound (x : string) (l : names) : option target := match l with [] => None | (y, t) :: r => if String.eqb x y then Some t else bound x r end.

(** [sys.modules], and the modules whose body was executed or begun, last first *)
Record world := { loaded : string -> option names; ran : list string }.
Definition nothing : world := {| loaded := fun _ => None; ran := [] |}.
Definition set (w : world) (m : string) (v : option names) : world := {| loaded := fun x => if String.eqb x m then v else loaded w x; ran := ran w |}.
Inductive error := Incompatible | ImportError | NameError | ModuleNotFound | TooDeep.
Inductive outcome := Done | Raised (e : error).

Section Import.
Context (api_version : option (list Z)) (modules : list file).
Definition find_file (m : string) : option file := find (fun f => String.eqb (f_name f) m) modules.
Definition bind_names (m : string) (l : names) (w : world) : world := match loaded w m with Some old => set w m (Some (l ++ old)) | None => w end.
Definition defined (m x : string) (w : world) : bool := match loaded w m with Some l => match bound x l with Some _ => true | None => false end | None => false end.
Section Body.
Context (import : string -> world -> outcome * world) (m : string).
Definition exec_stmt (s : stmt) (w : world) : outcome * world :=
  match s with
  | External _ l => (Done, bind_names m (map (fun x => (x, Other)) l) w)
  | Check => if negb (defined m "kaitaistruct" w) then (Raised NameError, w) else
      if tuple_lt (match api_version with Some v => v | None => [0; 9] end) [0; 9] then (Raised Incompatible, w) else (Done, w)
  | FromPackage p sub => let n := (p ++ "." ++ sub)%string in
      match import n w with (Done, w) => (Done, bind_names m [(sub, Module n)] w) | r => r end
  | FromModule n l =>
      match import n w with
      | (Done, w) => if forallb (fun x => defined n x w) l then (Done, bind_names m (map (fun x => (x, Other)) l) w) else (Raised ImportError, w)
      | r => r
      end
  | Define x uses => if forallb (fun y => defined m y w) uses then (Done, bind_names m [(x, Other)] w) else (Raised NameError, w)
  end.
Fixpoint exec_body (l : list stmt) (w : world) : outcome * world :=
  match l with [] => (Done, w) | s :: r => match exec_stmt s w with (Done, w) => exec_body r w | x => x end end.
End Body.
(** [import m]; [n] bounds the depth of nested imports, [TooDeep] beyond (Python: RecursionError) *)
Fixpoint import (n : nat) (m : string) (w : world) : outcome * world :=
  match loaded w m with
  | Some _ => (Done, w)
  | None =>
      match find_file m, n with
      | None, _ => (Raised ModuleNotFound, w)
      | _, O => (Raised TooDeep, w)
      | Some f, S n =>
          let w := {| loaded := loaded (set w m (Some [])); ran := m :: ran w |} in
          match exec_body (import n) m (f_body f) w with
          | (Done, w) => (Done, w)
          | (Raised e, w) => (Raised e, set w m None)
          end
      end
  end.
(** a program that imports modules one after the other, going on after errors *)
Fixpoint imports (n : nat) (l : list string) (w : world) : list outcome * world :=
  match l with [] => ([], w) | m :: r => let (o, w) := import n m w in let (os, w) := imports n r w in (o :: os, w) end.
End Import.

(** ** Vocabulary of C62 *)
(** the modules of the repository a statement imports *)
Definition stmt_imports (s : stmt) : list string :=
  match s with FromPackage p sub => [(p ++ "." ++ sub)%string] | FromModule m _ => [m] | _ => [] end.
(** the names a statement binds *)
Definition binds (s : stmt) : names :=
  match s with
  | External _ l | FromModule _ l => map (fun x => (x, Other)) l
  | Check => []
  | FromPackage p sub => [(sub, Module (p ++ "." ++ sub)%string)]
  | Define x _ => [(x, Other)]
  end.
(** [needs modules m x]: importing [m] leads, over any number of steps, to importing [x] *)
Inductive needs (modules : list file) : string -> string -> Prop :=
| needs_self m : needs modules m m
| needs_import m f d x : find_file modules m = Some f -> In d (flat_map stmt_imports (f_body f)) -> needs modules d x -> needs modules m x.
