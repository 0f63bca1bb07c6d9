(** C54 support: reading an instance of a definition is reading the generated property. *)
From Coq Require DecimalPos.
From Verif Require Import PyBase Runtime Codec Enums Getters EtsiModel HomebrewModel HyteraModel MotorolaModel LazyModel Ksy KsyDefs KsyTac KsyProofs1 KsyProofs2 KsyProofs3 KsyProofs4.
Open Scope string_scope.
Open Scope list_scope.
Open Scope Z_scope.

(** Reading instance [i] of a live object, as the definitions have it. *)
Definition ksy_get (rt : runtime) (i : inst) (o : live) : res pyval * live :=
  match run_inst rt i [l_attrs o] (l_io o) with
  | (Ok (v, fs), io) => (Ok v, {| l_attrs := hd [] fs; l_io := io |})
  | (Err e, io) => (Err e, {| l_attrs := l_attrs o; l_io := io |})
  end.
(** An access that fails because an attribute is missing or is not of the kind the class declares (which
    does not happen to an object that was read from bytes). *)
Definition ill_typed (r : res pyval * live) : Prop :=
  match fst r with Err TypeError | Err (AttributeError _) => True | _ => False end.
Definition agree (x y : res pyval * live) : Prop := x = y \/ ill_typed y.

Ltac icbv := cbv beta iota zeta delta [kbind kret io get put outer inner present need_int need_bool need_str binary number as_enum is_bits andb negb for_range
   vbits vint vflag venum vbytes vfull vstr vstr_full aligned read_flag read_u1 read_u2be read_u4be read_u2le read_u4le read_s2be read_str
   bind ret fail fst snd hd tl last removelast firstn option_map lift orb memo stored stored_int l_attrs l_io String.append
   attribute truth int_of_bool number_of TelemetryProtocol_specific_service RealTimeTransportProtocol_len_padding_if_exists to_i].
Ltac kcbv ::= icbv.
Ltac istep := first [prim | let h := left_head in lazymatch h with
  | lookup ?x ?a => destruct (lookup x a) eqn:?; icbv
  | getattr ?x ?a => destruct (getattr x a) eqn:?; icbv
  | ?v => is_var v; destruct v; icbv end].
Ltac inst := intros rt [a s]; left; unfold ksy_get; kcbn; icbv; repeat istep; names; try reflexivity.
Ltac done := first [left; reflexivity | right; exact I].
Ltac both := unfold ksy_get; kcbn; icbv; repeat (match goal with
  | H : lookup ?x ?a = _ |- context [lookup ?x ?a] => rewrite !H
  | H : getattr ?x ?a = _ |- context [getattr ?x ?a] => rewrite !H
  | |- context [lookup ?x ?a] => destruct (lookup x a) eqn:?
  | |- context [getattr ?x ?a] => destruct (getattr x a) eqn:?
  | |- context [match ?v with VNone => _ | VInt _ => _ | VBool _ => _ | VBytes _ => _ | VStr _ => _ | VEnum _ _ _ => _ | VList _ => _ | VObj _ _ => _ end] => is_var v; destruct v
  end; icbv; try done).
Lemma show_is z : show_int z = py_str_int z.
Proof.
  unfold show_int, py_str_int, DecimalString.NilZero.string_of_int, DecimalString.NilZero.string_of_uint. destruct z as [|p|p]; [reflexivity|cbn..].
  - destruct (Pos.to_uint p) eqn:E; try reflexivity. apply (f_equal Pos.of_uint) in E. rewrite DecimalPos.Unsigned.of_to in E. discriminate.
  - destruct (Pos.to_uint p) eqn:E; try reflexivity. apply (f_equal Pos.of_uint) in E. rewrite DecimalPos.Unsigned.of_to in E. discriminate.
Qed.

Lemma i_Homebrew2015_fifth_letter : forall rt o, agree (ksy_get rt I_Homebrew2015_fifth_letter o) (Homebrew2015_fifth_letter_property rt o).
Proof. unfold I_Homebrew2015_fifth_letter, Homebrew2015_fifth_letter_property, Homebrew2015_fifth_letter. inst.
Qed.

Lemma i_Mmdvm2020_fifth_letter : forall rt o, agree (ksy_get rt I_Mmdvm2020_fifth_letter o) (Mmdvm2020_fifth_letter_property rt o).
Proof. unfold I_Mmdvm2020_fifth_letter, Mmdvm2020_fifth_letter_property, Mmdvm2020_fifth_letter. inst.
Qed.

Lemma i_TelemetryProtocol_specific_service : forall rt o, agree (ksy_get rt I_TelemetryProtocol_specific_service o) (TelemetryProtocol_specific_service_property rt o).
Proof. unfold I_TelemetryProtocol_specific_service, TelemetryProtocol_specific_service_property. inst.
Qed.

Lemma i_TextMessageProtocol_option_sum_len : forall rt o, agree (ksy_get rt I_TextMessageProtocol_option_sum_len o) (TextMessageProtocol_option_sum_len_property o).
Proof. unfold I_TextMessageProtocol_option_sum_len, TextMessageProtocol_option_sum_len_property. inst.
Qed.

Lemma i_RealTimeTransportProtocol_len_padding_if_exists : forall rt o, agree (ksy_get rt I_RealTimeTransportProtocol_len_padding_if_exists o) (RealTimeTransportProtocol_len_padding_if_exists_property rt o).
Proof. unfold I_RealTimeTransportProtocol_len_padding_if_exists, RealTimeTransportProtocol_len_padding_if_exists_property. inst.
Qed.

Lemma i_MotTextMessageProtocol_custom_pdu_type : forall rt o, agree (ksy_get rt I_MotTextMessageProtocol_custom_pdu_type o) (MotTextMessageProtocol_custom_pdu_type_property o).
Proof. unfold I_MotTextMessageProtocol_custom_pdu_type, MotTextMessageProtocol_custom_pdu_type_property. intros rt [a s]. both.
Qed.

Lemma i_DmrDataHeader_DataHeaderShortRaw_appended_blocks : forall rt o, agree (ksy_get rt I_DmrDataHeader_DataHeaderShortRaw_appended_blocks o) (appended_blocks o).
Proof. unfold I_DmrDataHeader_DataHeaderShortRaw_appended_blocks, appended_blocks. inst.
Qed.

Lemma i_DmrDataHeader_DataHeaderShortDefined_appended_blocks : forall rt o, agree (ksy_get rt I_DmrDataHeader_DataHeaderShortDefined_appended_blocks o) (appended_blocks o).
Proof. unfold I_DmrDataHeader_DataHeaderShortDefined_appended_blocks, appended_blocks. inst.
Qed.

Lemma i_DmrDataHeader_DataHeaderShortStatusPrecoded_appended_blocks : forall rt o, agree (ksy_get rt I_DmrDataHeader_DataHeaderShortStatusPrecoded_appended_blocks o) (appended_blocks o).
Proof. unfold I_DmrDataHeader_DataHeaderShortStatusPrecoded_appended_blocks, appended_blocks. inst.
Qed.

Lemma i_Gpsdata_gps_available : forall rt o, agree (ksy_get rt I_Gpsdata_gps_available o) (Gpsdata_gps_available o).
Proof. unfold I_Gpsdata_gps_available, Gpsdata_gps_available. intros rt [a s]. both. all: match goal with |- context [py_decode ASCII ?y] => destruct (py_decode ASCII y) end; icbv; repeat istep; done.
Qed.

Lemma i_IpSiteConnectProtocol_source_radio_id : forall rt o, agree (ksy_get rt I_IpSiteConnectProtocol_source_radio_id o) (IpSiteConnectProtocol_source_radio_id o).
Proof. unfold I_IpSiteConnectProtocol_source_radio_id, IpSiteConnectProtocol_source_radio_id. inst.
Qed.

Lemma i_IpSiteConnectProtocol_destination_radio_id : forall rt o, agree (ksy_get rt I_IpSiteConnectProtocol_destination_radio_id o) (IpSiteConnectProtocol_destination_radio_id o).
Proof. unfold I_IpSiteConnectProtocol_destination_radio_id, IpSiteConnectProtocol_destination_radio_id. inst.
Qed.

Lemma i_IpSiteConnectProtocol_color_code : forall rt o, agree (ksy_get rt I_IpSiteConnectProtocol_color_code o) (IpSiteConnectProtocol_color_code o).
Proof. unfold I_IpSiteConnectProtocol_color_code, IpSiteConnectProtocol_color_code. inst.
Qed.

Lemma i_IpSiteConnectProtocol_is_wakeup : forall rt o, agree (ksy_get rt I_IpSiteConnectProtocol_is_wakeup o) (IpSiteConnectProtocol_is_wakeup o).
Proof. unfold I_IpSiteConnectProtocol_is_wakeup, IpSiteConnectProtocol_is_wakeup. rewrite E_IpSiteConnectProtocol_CallTypes, E_IpSiteConnectProtocol_SlotTypes. intros rt [a s]. unfold ksy_get. kcbn. icbv. destruct (lookup "_m_is_wakeup" a) eqn:?; icbv; [done|]. destruct (lookup "call_type" a) eqn:?; icbv; [|done]. destruct (lookup "slot_type" a) eqn:?; icbv; [|done]. left. repeat (match goal with H : lookup ?x ?y = _ |- context [lookup ?x ?y] => rewrite !H; icbv end || istep); reflexivity.
Qed.

Lemma i_LocationProtocol_opcode : forall rt o, agree (ksy_get rt I_LocationProtocol_opcode o) (LocationProtocol_opcode rt o).
Proof. unfold I_LocationProtocol_opcode, LocationProtocol_opcode. inst.
Qed.

Lemma i_RadioId_radio_id : forall rt o, agree (ksy_get rt I_RadioId_radio_id o) (RadioId_radio_id o).
Proof. unfold I_RadioId_radio_id, RadioId_radio_id. inst.
Qed.

Lemma i_RadioIp_radio_id : forall rt o, agree (ksy_get rt I_RadioIp_radio_id o) (RadioIp_radio_id o).
Proof. unfold I_RadioIp_radio_id, RadioIp_radio_id. inst.
Qed.

Lemma i_RadioIp_radio_ip : forall rt o, agree (ksy_get rt I_RadioIp_radio_ip o) (RadioIp_radio_ip o).
Proof. unfold I_RadioIp_radio_ip, RadioIp_radio_ip. intros rt [a s]. both. all: left; rewrite !show_is, <- !app_assoc; reflexivity.
Qed.

Lemma i_MotTextMessageProtocol_TmsAcknowledgementHeaderSequenceNumber_sequence_number : forall rt o, agree (ksy_get rt I_MotTextMessageProtocol_TmsAcknowledgementHeaderSequenceNumber_sequence_number o) (MotTextMessageProtocol_TmsAcknowledgementHeader_sequence_number o).
Proof. unfold I_MotTextMessageProtocol_TmsAcknowledgementHeaderSequenceNumber_sequence_number, MotTextMessageProtocol_TmsAcknowledgementHeader_sequence_number. inst.
Qed.

Lemma i_MotTextMessageProtocol_TextMessageHeaderSequenceAndEncoding_sequence_number : forall rt o, agree (ksy_get rt I_MotTextMessageProtocol_TextMessageHeaderSequenceAndEncoding_sequence_number o) (MotTextMessageProtocol_TextMessageHeader_sequence_number o).
Proof. unfold I_MotTextMessageProtocol_TextMessageHeaderSequenceAndEncoding_sequence_number, MotTextMessageProtocol_TextMessageHeader_sequence_number. inst.
Qed.

Lemma i_RealTimeTransportProtocol_len_padding : forall rt o, agree (ksy_get rt I_RealTimeTransportProtocol_len_padding o) (RealTimeTransportProtocol_len_padding_property rt o).
Proof.
  unfold I_RealTimeTransportProtocol_len_padding, RealTimeTransportProtocol_len_padding_property, RealTimeTransportProtocol_len_padding_if_exists_property, I_RealTimeTransportProtocol_len_padding_if_exists. intros rt [a s].
  unfold ksy_get. kcbn. icbv.
  destruct (lookup "_m_len_padding" a) eqn:?; [left; reflexivity|].
  destruct (lookup "fixed_header" a) as [h|] eqn:?; icbv; [|left; reflexivity].
  destruct (getattr "padding" h) as [p|] eqn:?; icbv; [|left; reflexivity].
  destruct p as [| |b| | | | |]; icbv; try (right; exact I).
  destruct b; icbv; [|left; reflexivity].
  rewrite ?Heqo0, ?Heqo1. icbv. rewrite ?Heqo0, ?Heqo1. icbv. left. repeat istep; try reflexivity.
Qed.
Definition data_switch : ty := match I_DmrDataHeader_data with IAt _ _ _ _ (TSized _ t) => t | _ => TEos end.
Lemma data_switch_is rt a f s : lookup "data_packet_format" a = Some f ->
  run_ty rt "" None data_switch [a] s = (v <- data_header_body rt f;; ret (Some v, [a])) s.
Proof.
  intros L. unfold data_switch, I_DmrDataHeader_data, data_header_body. rewrite ?E_DmrDataHeader_DataPacketFormats. kcbn.
  refold rt T_DmrDataHeader_DataHeaderUdt.
  refold rt T_DmrDataHeader_DataHeaderResponse.
  refold rt T_DmrDataHeader_DataHeaderUnconfirmed.
  refold rt T_DmrDataHeader_DataHeaderConfirmed.
  refold rt T_DmrDataHeader_DataHeaderShortDefined.
  refold rt T_DmrDataHeader_DataHeaderShortStatusPrecoded.
  refold rt T_DmrDataHeader_DataHeaderProprietary.
  refold rt T_DmrDataHeader_DataHeaderUndefined.
  icbv. rewrite L. icbv.
  repeat (let h := left_head in lazymatch h with eq_member _ _ _ => prim end || fail); try reflexivity.
  all: icbv; let h := left_head in match h with run_typ ?rt ?t ?fs ?s => let H := fresh in assert (H : reads rt t _) by (eauto with ksy); rewrite (H fs s) end; icbv; let h := left_head in destruct h as [[]]; reflexivity.
Qed.
Lemma i_DmrDataHeader_data : forall rt o, agree (ksy_get rt I_DmrDataHeader_data o) (DmrDataHeader_data rt o).
Proof.
  intros rt [a s]. unfold DmrDataHeader_data, ksy_get.
  change I_DmrDataHeader_data with (IAt "data" ETrue (EInt 0) None (TSized (EInt 12) data_switch)).
  cbn [run_inst eval]. unfold memo. cbn [l_attrs l_io hd]. change ("_m_" ++ "data")%string with "_m_data".
  destruct (lookup "_m_data" a) eqn:?; [left; reflexivity|].
  destruct (lookup "data_packet_format" a) as [f|] eqn:L; [|right; unfold stored, bind; rewrite L; exact I].
  left. unfold stored, data_header_compute. rewrite L.
  change (run_ty rt "" None (TSized (EInt 12) data_switch)) with (fun fs => (n <~ eval rt (EInt 12) VNone;; n <~ need_int n;; fun fs => substream rt n (run_ty rt "" None data_switch fs)) fs).
  cbn [eval]. generalize (data_switch_is rt a f). generalize data_switch. intros sw Hsw. icbv. 
  act (io_pos s). act (io_seek rt 0 s0). unfold substream. act (read_bytes rt 12 s1).
  match goal with |- context [?f "" None sw [a] (stream_of r1)] => change (f "" None sw [a] (stream_of r1)) with (run_ty rt "" None sw [a] (stream_of r1)) end. rewrite (Hsw (stream_of r1) L). unfold from_bytes. icbv. destruct (data_header_body rt f (stream_of r1)) as [[v|e] s3]; icbv; [|reflexivity].
  act (io_seek rt r s2). reflexivity.
Qed.
