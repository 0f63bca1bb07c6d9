(** The repository's own test suite (okdmr/tests/kaitai) run on the model.  These are tests, not proofs of
    properties: they check that the model is the program.  Every message of the suite is parsed by the model
    under both runtimes, and every assertion of the suite is stated and evaluated. *)
From Verif Require Import PyBase Runtime Codec Enums Getters EtsiModel HomebrewModel HyteraModel MotorolaModel PyFloat MotorolaFloat ToolsModel.
Open Scope string_scope.
Open Scope list_scope.
Open Scope Z_scope.

(** [Cls.from_bytes(bytes.fromhex(h))] *)
Definition parse (p : M pyval) (h : string) : res pyval := rbind (fromhex (lit h)) (from_bytes p).
(** [obj.x.y...] *)
Fixpoint at_path (l : list string) (v : pyval) : option pyval :=
  match l with [] => Some v | x :: l' => match getattr x v with Some w => at_path l' w | None => None end end.
(** accepted, and [prettyprint] prints it *)
Definition accepted (p : runtime -> M pyval) (hs : list string) : Prop :=
  Forall (fun h => forall rt, exists v d, parse (p rt) h = Ok v /\ prettyprint v = Some d) hs.
Ltac run := repeat (apply Forall_cons; [intros [|]; eexists; eexists; (split; vm_compute; reflexivity)|]); apply Forall_nil.
(** the attributes at the given paths have the given values *)
Definition attributes (p : runtime -> M pyval) (h : string) (l : list (list string * pyval)) : Prop :=
  forall rt, exists v, parse (p rt) h = Ok v /\ Forall (fun '(path, w) => at_path path v = Some w) l.
Ltac check := intros [|]; eexists; (split; [vm_compute; reflexivity|]); repeat (apply Forall_cons; [vm_compute; reflexivity|]); apply Forall_nil.
(** [obj.prop] *)
Definition property (p : M pyval) (prop : live -> res pyval * live) (h : string) : res pyval :=
  rbind (rbind (fromhex (lit h)) (open_object p)) (fun o => fst (prop o)).

(** okdmr/tests/kaitai/etsi/test_dmr_csbk.py:8-13 [test_csbk]: every message is accepted and can be pretty-printed *)
Example repo_test_csbk : accepted (fun _ => p_DmrCsbk) [
  "bd0080180008fd23383bb2ed"].
Proof. run. Qed.

(** okdmr/tests/kaitai/etsi/test_dmr_header.py:7-15 [test_dmr_data_headers]: every message is accepted and can be pretty-printed *)
Example repo_test_dmr_data_headers : accepted (fun _ => p_DmrDataHeader) [
  "4da323383b23383b05608040"].
Proof. run. Qed.

(** okdmr/tests/kaitai/motorola/test_mbxml.py:72-84 [test_decode]: every message is accepted and can be pretty-printed *)
Example repo_test_decode : accepted (p_MotorolaBinaryXml) [
  "050822042468ace05162"].
Proof. run. Qed.

(** okdmr/tests/kaitai/hytera/test_data_delivery_states.py:7-13 [test_dds]: every message is accepted and can be pretty-printed *)
Example repo_test_dds : accepted (p_DataDeliveryStates) [
  "14000800070003640ea001000d03"].
Proof. run. Qed.

(** okdmr/tests/kaitai/hytera/test_hdap.py:9-21 [test_hdap]: every message is accepted and can be pretty-printed *)
Example repo_test_hdap : accepted (p_HyteraDmrApplicationProtocol) [
  "11000300040a2338636303";
  "11008000090a2338630000000708d203";
  "08a0030034000000000a2338630000413131323534303237303932314e353030332e383734364530313432362e35313932302e32323533ff1cae03";
  "0980a10022000000010a01b2070a03640e4f004c004900560045005200200054004500530054007a03"].
Proof. run. Qed.

(** okdmr/tests/kaitai/hytera/test_hrnp.py:7-23 [test_hrnp]: every message is accepted and can be pretty-printed *)
Example repo_test_hrnp : accepted (p_HyteraRadioNetworkProtocol) [
  "7e0400fe20100000000c60e1";
  "7e0300fe20100000000c60e2";
  "7e0400002010000100189b6002040005006400000001c403";
  "7e0400fd10200000000c70d2";
  "7e030000201000000018fefe02c910050002000101014f037e040000102000010019d6240204800600000f690600012903";
  "7e0400001020000300e1c65702d482ce00000f6906000200440039002e00300030002e00300037002e003200310030002e0069004d000000410039002e00300030002e00300038002e003300300038002e0069004d0000004f004b00300044004d0052000000000000000000000000000000000000000000520044003900380035002d00300030003000300030003000300030002d003000300030003000300030002d00550031002d0030002d004600000000000000000031003200330032003000410030003300310032000000000000000000000000000f6906000000001b03";
  "7E04000020100000001873890241080500006F0000007503"].
Proof. run. Qed.

(** okdmr/tests/kaitai/hytera/test_hstrp.py:9-41 [test_hstrp]: every message is accepted and can be pretty-printed *)
Example repo_test_hstrp : accepted (p_HyteraSimpleTransportReliabilityProtocol) [
  "324200020000";
  "32420024000083040001869f040102";
  "324200010003";
  "32420020003c83040001869f0401020245b81000000004000200010010270000640000008303";
  "32420020000383040001869f0401020900b10018000000010000271000000064480065006c006c006f002100b803";
  "32420020003583040001869f0401010245b810000000040002000100204e0000640000004c03";
  "32420020000383040001869f0401010900b1001c0000000200004e2000000064570065006c0063006f006d0065002100a403";
  "3242000000010901a10026300000010a0000640a01869f5200520053002000770061006900740020006f00760065007200f403";
  "32420020000183040001869f0401020900a2000d30000001000000640001869f00c803";
  "32420020000183040001869f0401010900a2000d30000002000000640001869f00c703";
  "32420020000783040001869f0401020245b810000000050002000000640000009f8601009403";
  "32420000001502e700020009013f03";
  "32420020001b83040001869f04010102e780070000010938ffffff8503"].
Proof. run. Qed.

(** okdmr/tests/kaitai/hytera/test_ipsc.py:7-21 [test_ipsc]: every message is accepted and can be pretty-printed *)
Example repo_test_ipsc : accepted (p_IpSiteConnectProtocol) [
  "5a5a5a5a0000000042000501020000002222dddd555500004000000000000000000000000000020002000000000000000000000000000000b2dd503250380c00000014000000ff01";
  "5a5a5a5a0000000042000501020000002222eeee555533334000bd0000008000150000000800fd00230038003b0038003b00b41200447eb7ffffef0844400000fd0800003b382300";
  "5a5a5a5a0000000042000501020000002222eeee555511114028000000000000000000006f00230038003b00342a2c10942a2c10f42a2c10833f0017e60a01006f0000003b382300"].
Proof. run. Qed.

(** okdmr/tests/kaitai/hytera/test_location_protocol.py:8-25 [test_lp]: every message is accepted and can be pretty-printed *)
Example repo_test_lp : accepted (p_LocationProtocol) [
  "a0030034000000000a2338630000413131323534303237303932314e353030332e383734364530313432362e35313932302e32323533ff1cae03";
  "A0010009200000030A03640E01E503";
  "a0020032200000030a03640e0000413136323235313331313031384e343733362e363937354530303733392e32363830302e303030358803";
  "a0010009200000010a03640e01e703";
  "a0020032200000010a03640e0000413136323232333331313031384e343733362e363937374530303733392e32363830302e303030358903";
  "a0010009200000020a03640e01e603";
  "d0010039200000020a03640e04000003e830303030303030303030303030303030303030303030303030303030303030303031303030303030303832304d03";
  "d0040034000015c80a0000030000413138343033303036313232314e343732342e303135384530303733312e31303733302e30323037ffc66303"].
Proof. run. Qed.

(** okdmr/tests/kaitai/hytera/test_text_message_protocol.py:7-16 [test_hytera_text_messages]: every message is accepted and can be pretty-printed *)
Example repo_test_hytera_text_messages : accepted (p_TextMessageProtocol) [
  "00014100480019804a002000540041004400590020004d004100520045004b00000000000000000000000000";
  "0980a10022000000010a01b2070a03640e4f004c004900560045005200200054004500530054007a03"].
Proof. run. Qed.

(** okdmr/tests/kaitai/hytera/test_ipsc.py:24-83 [test_wakeup]: [IPSC.is_wakeup] is true *)
Example repo_test_wakeup : Forall (fun h => forall rt, property (p_IpSiteConnectProtocol rt) IpSiteConnectProtocol_is_wakeup h = Ok (VBool true)) [
  "5a5a5a5a0000000042000501010000001111dddd11110000406c2710b06c27100c6d2710386d2710786d2710b86d2710186e2710786e271030307e0400fd00000000000c70d20401";
  "5a5a5a5a0000000042000501020000002222dddd11110000406c2710b06c27100c6d2710386d2710786d2710b86d2710186e2710786e271030307e0400fd00000000000c70d20401";
  "5a5a5a5a0000000042000501010000001111dddd11110000406c2710b06c27100c6d2710386d2710786d2710b86d2710186e2710786e2710303032420024000083040000006f0401";
  "5a5a5a5a0000000042000501020000002222dddd11110000406c2710b06c27100c6d2710386d2710786d2710b86d2710186e2710786e2710303032420024000083040000006f0401";
  "5a5a5a5a0000000042000501010000001111dddd11110000403030303030303030303030303030303030303030303030303030303030303030300000040201006f0000003b382300";
  "5a5a5a5a0000000042000501020000002222dddd11110000403030303030303030303030303030303030303030303030303030303030303030300000040201006f0000003b382300";
  "5a5a5a5a0000000042000501010000001111dddd11110000406c2710b06c27100c6d2710386d2710786d2710b86d2710186e2710786e2710303032420024000083040000006f0401";
  "5a5a5a5a0000000042000501020000002222dddd11110000406c2710b06c27100c6d2710386d2710786d2710b86d2710186e2710786e2710303032420024000083040000006f0401";
  "5a5a5a5a0000000042000501010000001111dddd1111000040303030303030303030303030303030303030303030303030303030303030303030ef08000001006f0000003b382300";
  "5a5a5a5a0000000042000501020000002222dddd1111000040303030303030303030303030303030303030303030303030303030303030303030ef08000001006f0000003b382300";
  "5a5a5a5a0000000042000501010000001111dddd11110000406c2710b06c27100c6d2710386d2710786d2710b86d2710186e2710786e271030300017e60a01006f0000003b382300";
  "5a5a5a5a0000000042000501020000002222dddd11110000406c2710b06c27100c6d2710386d2710786d2710b86d2710186e2710786e271030300017e60a01006f0000003b382300";
  "5a5a5a5a0000000042000501010000001111dddd11110000404e1910a44e1910004f19102c4f19106c4f1910ac4f19100c5019106c501910303032420024000083040000006f0401";
  "5a5a5a5a0000000042000501020000002222dddd11110000404e1910a44e1910004f19102c4f19106c4f1910ac4f19100c5019106c501910303032420024000083040000006f0401";
  "5a5a5a5a0000000042000501010000001111dddd11110000406c2710b06c27100c6d2710386d2710786d2710b86d2710186e2710786e271083260024320a01006f0000003b382300";
  "5a5a5a5a0000000042000501020000002222dddd11110000406c2710b06c27100c6d2710386d2710786d2710b86d2710186e2710786e271083260024320a01006f0000003b382300";
  "5a5a5a5a0000000042000501010000001111dddd111100004000000000000000000000000100020002000100000000000000000000000000ffffef082a0000000000140000004201";
  "5a5a5a5a0000000042000501020000002222dddd111100004000000000000000000000000100020002000100000000000000000000000000ffffef082a0000000000140000004201";
  "5a5a5a5a0000000042000501010000001111dddd111100004000000000000000000000000100020002000100000000000000000000000000ffffef082a0000000000000c70d50000";
  "5a5a5a5a0000000042000501020000002222dddd111100004000000000000000000000000100020002000100000000000000000000000000ffffef082a0000000000000c70d50000";
  "5a5a5a5a0000000042000501010000001111dddd555500004000000000000000000000000100020002000100000000000000000000000000ffffef08000000000000000c70d50000";
  "5a5a5a5a0000000042000501020000002222dddd555500004000000000000000000000000100020002000100000000000000000000000000ffffef08000000000000000c70d50000";
  "5a5a5a5a0000000042000501010000001111dddd555500004000000000000000000000000100020002000100000000000000000000000000ffffef082a0000000000000009382300";
  "5a5a5a5a0000000042000501020000002222dddd555500004000000000000000000000000100020002000100000000000000000000000000ffffef082a0000000000000009382300";
  "5a5a5a5a0000000042000501010000001111dddd55550000400000000000000000000000000002000200000000000000000000000000000083040033b00a01006f00000009382300";
  "5a5a5a5a0000000042000501020000002222dddd55550000400000000000000000000000000002000200000000000000000000000000000083040033b00a01006f00000009382300";
  "5a5a5a5a0000000042000501010000001111dddd555500004000000000000000000000000100020002000100000000000000000000000000ffffef082a0000000000000009382300";
  "5a5a5a5a0000000042000501020000002222dddd555500004000000000000000000000000100020002000100000000000000000000000000ffffef082a0000000000000009382300";
  "5a5a5a5a0000000042000501010000001111dddd555500004000000000000000000000000100020002000100000000000000000000000000ffffef082a0000000000000c70d40000";
  "5a5a5a5a0000000042000501020000002222dddd555500004000000000000000000000000100020002000100000000000000000000000000ffffef082a0000000000000c70d40000";
  "5a5a5a5a0000000042000501010000001111dddd111100004000000000000000000000000100000000000100000000000000000000000000ffffef0800000b00000080bf00000000";
  "5a5a5a5a0000000042000501020000002222dddd111100004000000000000000000000000100000000000100000000000000000000000000ffffef0800000b00000080bf00000000";
  "5a5a5a5a0000000042000501010000001111dddd555500004000000000000000000000000100020002000100000000000000000000000000ffffef082a0000000000000c71a50000";
  "5a5a5a5a0000000042000501020000002222dddd555500004000000000000000000000000100020002000100000000000000000000000000ffffef082a0000000000000c71a50000";
  "5a5a5a5a0000000042000501010000001111dddd111100004000000000000000000000000100020002000100000000000000000000000000ffffef082a000b000000000c71b36d04";
  "5a5a5a5a0000000042000501020000002222dddd111100004000000000000000000000000100020002000100000000000000000000000000ffffef082a000b000000000c71b36d04"].
Proof. repeat (apply Forall_cons; [intros [|]; vm_compute; reflexivity|]). apply Forall_nil. Qed.

(** okdmr/tests/kaitai/etsi/test_full_link_control.py:5-14 *)
Example repo_test_group_full_link_control : attributes (p_FullLinkControl) "000000000009280722504778" [
  (["specific_data"; "group_address"], VInt 9);
  (["specific_data"; "source_address"], VInt 2623266);
  (["crc_checksum"], VBytes (blit "PGx"))].
Proof. check. Qed.

Example repo_test_group_full_link_control_absent : forall rt, exists v a, parse (p_FullLinkControl rt) "000000000009280722504778" = Ok v /\
  getattr "cs5_checksum" v = None /\ getattr "specific_data" v = Some (VObj "FullLinkControl.GroupVoiceChannelUser" a).
Proof. intros [|]; eexists; eexists; (split; [vm_compute; reflexivity|]); (split; vm_compute; reflexivity). Qed.

(** okdmr/tests/kaitai/etsi/test_full_link_control.py:17-29 *)
Example repo_test_group_embedded_full_link_control : attributes (p_FullLinkControl) "00000000086520baf888" [
  (["full_link_control_opcode"], VEnum "FullLinkControl.Flcos" "group_voice" 0);
  (["feature_set_id"], VEnum "FullLinkControl.FeatureSetIds" "standardized_ts_102_361_2" 0);
  (["specific_data"; "group_address"], VInt 2149);
  (["specific_data"; "source_address"], VInt 2145016);
  (["specific_data"; "service_options"], VInt 0)].
Proof. check. Qed.

Example repo_test_group_embedded_full_link_control_absent : forall rt, exists v x, parse (p_FullLinkControl rt) "00000000086520baf888" = Ok v /\
  getattr "crc_checksum" v = None /\ getattr "cs5_checksum" v = Some x.
Proof. intros [|]; eexists; eexists; (split; [vm_compute; reflexivity|]); (split; vm_compute; reflexivity). Qed.

(** okdmr/tests/kaitai/etsi/test_dmr_header.py:15 [prettyprint(header.data)] *)
Example repo_test_dmr_data_headers_data : forall rt, exists v d,
  property p_DmrDataHeader (DmrDataHeader_data rt) "4da323383b23383b05608040" = Ok v /\ prettyprint v = Some d.
Proof. intros [|]; eexists; eexists; (split; vm_compute; reflexivity). Qed.

(** okdmr/tests/kaitai/motorola/test_mbxml.py:11-30 [test_uintvar], [test_sintvar] *)
Definition payload_of (v : pyval) : option (list Z) :=
  match getattr "payload" v with
  | Some (VList l) => traverse (fun x => match x with VInt z => Some z | _ => None end) l
  | _ => None
  end.
Definition number (p : runtime -> M pyval) (f : list Z -> Z) (rt : runtime) (h : string) : option Z :=
  match parse (p rt) h with Ok v => option_map f (payload_of v) | Err _ => None end.
Example repo_test_uintvar : forall rt, map (number p_MotorolaBinaryXml_Uintvar uintvar_to_int rt) ["25"; "8120"; "828F25"] = [Some 0x25; Some 0xA0; Some 0x87A5].
Proof. intros [|]; vm_compute; reflexivity. Qed.
Example repo_test_sintvar : forall rt, map (number p_MotorolaBinaryXml_Sintvar sintvar_to_int rt) ["65"; "C120"] = [Some (-0x25); Some (-0xA0)].
Proof. intros [|]; vm_compute; reflexivity. Qed.
(** okdmr/tests/kaitai/motorola/test_mbxml.py:33-69 [test_ufloatvar], [test_sfloatvar]: the suite compares rounded values;
    in these cases the decoded number is exactly the reference [n/d] *)
Definition fnumber (p : runtime -> M pyval) (i : string) (f : list Z -> list Z -> res pyfloat) (rt : runtime) (h : string) : option pyfloat :=
  match parse (p rt) h with
  | Ok v => match getattr i v, getattr "fraction_payload" v with
            | Some x, Some y => match payload_of x, payload_of y with
                                | Some a, Some b => match f a b with Ok r => Some r | Err _ => None end
                                | _, _ => None end
            | _, _ => None end
  | Err _ => None
  end.
Definition equals (x : option pyfloat) (n d : Z) : Prop :=
  match x with Some (Fin s m e) => signed s m * 2 ^ Z.max 0 e * d = n * 2 ^ Z.max 0 (- e) | _ => False end.
Example repo_test_ufloatvar : forall rt, let f := fnumber p_MotorolaBinaryXml_Ufloatvar "uint_payload" ufloatvar_to_float rt in
  equals (f "2540") (37 * 128 + 64) 128 /\ equals (f "2540") (37 * 128 ^ 2 + 8192) (128 ^ 2) /\
  equals (f "812007") (160 * 128 + 7) 128 /\ equals (f "81208757") (160 * 128 ^ 2 + 983) (128 ^ 2).
Proof. intros [|]; vm_compute; repeat split; reflexivity. Qed.
Example repo_test_sfloatvar : forall rt, let f := fnumber p_MotorolaBinaryXml_Sfloatvar "sint_payload" sfloatvar_to_float rt in
  equals (f "6540") (- 37 * 128 - 64) 128 /\ equals (f "C1208757") (- 160 * 128 ^ 2 - 983) (128 ^ 2).
Proof. intros [|]; vm_compute; repeat split; reflexivity. Qed.

(** okdmr/tests/kaitai/motorola/test_message_protocol.py:8-37 *)
Example repo_test_mototrbo_text_messages : attributes (p_MotTextMessageProtocol) "0010e00093040d000a00410048004f004a00" [
  (["len_address"], VInt 0);
  (["message_header"; "acknowledgement_required"], VBool true);
  (["message_header"; "control_user_bit"], VBool false);
  (["message_header"; "extension_bit"], VBool true);
  (["message_header"; "pdu_type"], VInt 0);
  (["message_header"; "reserved"], VBool true);
  (["message_size"], VInt 16);
  (["pdu_content"; "text_message"], VStr ([13; 10] ++ lit "AHOJ"));
  (["pdu_content"; "text_message_header_sequence_and_encoding"; "encoding"], VInt 4);
  (["pdu_content"; "text_message_header_sequence_and_encoding"; "has_encoding_header"], VBool true);
  (["pdu_content"; "text_message_header_sequence_and_encoding"; "header_encoding_extension"], VBool false);
  (["pdu_content"; "text_message_header_sequence_and_encoding"; "reserved_1"], VInt 0);
  (["pdu_content"; "text_message_header_sequence_and_encoding"; "sequence_number_lsb_bits"], VInt 19);
  (["pdu_content"; "text_message_header_sequence_and_encoding"; "sequence_number_msb_bits"], VInt 0)].
Proof. check. Qed.

(** okdmr/tests/kaitai/motorola/test_ars.py:10-37 *)
Example repo_test_ars : attributes (p_AutomaticRegistrationService) "000cf0200732333038303934000000" [
  (["message_size"], VInt 3072);
  (["message_header"; "acknowledgement_bit"], VBool true);
  (["message_header"; "control_user_bit"], VBool true);
  (["message_header"; "extension_bit"], VBool true);
  (["message_header"; "pdu_type"], VInt 0);
  (["message_header"; "priority"], VBool true);
  (["pdu_content"; "device_identifier"], VBytes (blit "2308094"));
  (["pdu_content"; "len_device_identifier"], VInt 7);
  (["pdu_content"; "len_password"], VInt 0);
  (["pdu_content"; "len_user_identifier"], VInt 0);
  (["pdu_content"; "device_registration_message_header"; "encoding"], VInt 0);
  (["pdu_content"; "device_registration_message_header"; "event"], VEnum "AutomaticRegistrationService.RegistrationEvents" "initial_event" 1);
  (["pdu_content"; "device_registration_message_header"; "extension_bit"], VBool false)].
Proof. check. Qed.

(** okdmr/tests/kaitai/homebrew/test_mmdvm.py:8-13 *)
Example repo_test_mmdvm_packets : forall rt, parse (p_Mmdvm2020 rt) "444d524100066b0c2337fa00cc004f004b0034" = Err (UnicodeDecodeError "ascii").
Proof. intros [|]; vm_compute; reflexivity. Qed.

(** okdmr/tests/kaitai/hytera/test_location_protocol.py:33-66 *)
Example repo_test_parse_standard_answer : attributes (p_LocationProtocol) "a0020032200000010a03640e0000413136323232333331313031384e343733362e363937374530303733392e32363830302e303030358903" [
  (["opcode_header"], VEnum "LocationProtocol.LpSpecificTypes" "standard_answer" 40962);
  (["data"; "result"], VEnum "LocationProtocol.ResultCodes" "ok" 0);
  (["data"; "radio_ip"; "subnet"], VInt 10);
  (["data"; "gpsdata"; "gps_status"], VBytes (blit "A"));
  (["data"; "gpsdata"; "gps_date"], VBytes (blit "311018"));
  (["data"; "gpsdata"; "gps_time"], VBytes (blit "162223"));
  (["data"; "gpsdata"; "east_west"], VBytes (blit "E"));
  (["data"; "gpsdata"; "longitude"], VBytes (blit "00739.2680"));
  (["data"; "gpsdata"; "north_south"], VBytes (blit "N"));
  (["data"; "gpsdata"; "latitude"], VBytes (blit "4736.6977"));
  (["data"; "gpsdata"; "direction"], VBytes (blit "005"));
  (["data"; "gpsdata"; "speed"], VBytes (blit "0.0"))].
Proof. check. Qed.

(** okdmr/tests/kaitai/hytera/test_location_protocol.py:69-103 *)
Example repo_test_parse_condition_report_rssi : attributes (p_LocationProtocol) "d0040034000015c80a0000030000413138343033303036313232314e343732342e303135384530303733312e31303733302e30323037ffc66303" [
  (["opcode_header"], VEnum "LocationProtocol.LpSpecificTypes" "condition_report_with_rssi" 53252);
  (["data"; "result"], VEnum "LocationProtocol.ResultCodes" "ok" 0);
  (["data"; "radio_ip"; "subnet"], VInt 10);
  (["data"; "gpsdata"; "gps_status"], VBytes (blit "A"));
  (["data"; "gpsdata"; "gps_date"], VBytes (blit "061221"));
  (["data"; "gpsdata"; "gps_time"], VBytes (blit "184030"));
  (["data"; "gpsdata"; "east_west"], VBytes (blit "E"));
  (["data"; "gpsdata"; "longitude"], VBytes (blit "00731.1073"));
  (["data"; "gpsdata"; "north_south"], VBytes (blit "N"));
  (["data"; "gpsdata"; "latitude"], VBytes (blit "4724.0158"));
  (["data"; "gpsdata"; "direction"], VBytes (blit "207"));
  (["data"; "gpsdata"; "speed"], VBytes (blit "0.0"))].
Proof. check. Qed.

Example repo_location_opcode : forall rt,
  property (p_LocationProtocol rt) (LocationProtocol_opcode rt) "a0020032200000010a03640e0000413136323232333331313031384e343733362e363937374530303733392e32363830302e303030358903" = Ok (VEnum "LocationProtocol.LpGeneralTypes" "standard_location_immediate_service" 160) /\
  property (p_LocationProtocol rt) (LocationProtocol_opcode rt) "d0040034000015c80a0000030000413138343033303036313232314e343732342e303135384530303733312e31303733302e30323037ffc66303" = Ok (VEnum "LocationProtocol.LpGeneralTypes" "condition_triggered_reporting_service" 208).
Proof. intros [|]; vm_compute; split; reflexivity. Qed.
(** [message.data.gpsdata.gps_available] for an object that holds the parsed attributes *)
Definition gps_available_in (p : M pyval) (h : string) : option (res pyval) :=
  match parse p h with
  | Ok v => match at_path ["data"; "gpsdata"] v with
            | Some (VObj _ a) => Some (fst (Gpsdata_gps_available {| l_attrs := a; l_io := stream_of [] |}))
            | _ => None end
  | Err _ => None
  end.
Example repo_gps_available : forall rt,
  gps_available_in (p_LocationProtocol rt) "a0020032200000010a03640e0000413136323232333331313031384e343733362e363937374530303733392e32363830302e303030358903" = Some (Ok (VBool true)) /\
  gps_available_in (p_LocationProtocol rt) "d0040034000015c80a0000030000413138343033303036313232314e343732342e303135384530303733312e31303733302e30323037ffc66303" = Some (Ok (VBool true)).
Proof. intros [|]; vm_compute; split; reflexivity. Qed.

(** okdmr/tests/kaitai/hytera/test_radio_ip.py:4-17 *)
Example repo_test_radio_ip : Forall (fun '(h, subnet, id, ip) => forall rt, exists v, parse (p_RadioIp rt) h = Ok v /\ getattr "subnet" v = Some (VInt subnet) /\
  property (p_RadioIp rt) RadioIp_radio_id h = Ok (VInt id) /\ property (p_RadioIp rt) RadioIp_radio_ip h = Ok (VStr (lit ip))) [
  ("0a000001", 10, 1, "10.0.0.1");
  ("0a000050", 10, 80, "10.0.0.80");
  ("5001172D", 80, 71469, "80.1.23.45");
  ("500C2238", 80, 795192, "80.12.34.56");
  ("0a0a0001", 10, 655361, "10.10.0.1");
  ("0a2110dd", 10, 2167005, "10.33.16.221")].
Proof. repeat (apply Forall_cons; [intros [|]; eexists; (split; [vm_compute; reflexivity|]); repeat split; vm_compute; reflexivity|]). apply Forall_nil. Qed.

(** okdmr/tests/kaitai/hytera/test_rcp.py:8-29 *)
Example repo_test_rcp_1 : attributes (p_RadioControlProtocol) "040005006400000001" [
  (["data"; "data"], VBytes (B [100; 0; 0; 0; 1]));
  (["message_length"], VInt 5);
  (["service_type"], VEnum "RadioControlProtocol.ServiceTypes" "radio_identification_request" 4)].
Proof. check. Qed.

(** okdmr/tests/kaitai/hytera/test_rcp.py:8-29 *)
Example repo_test_rcp_2 : attributes (p_RadioControlProtocol) "d482ce00000f6906000200440039002e00300030002e00300037002e003200310030002e0069004d000000410039002e00300030002e00300038002e003300300038002e0069004d0000004f004b00300044004d0052000000000000000000000000000000000000000000520044003900380035002d00300030003000300030003000300030002d003000300030003000300030002d00550031002d0030002d004600000000000000000031003200330032003000410030003300310032000000000000000000000000000f690600000000" [
  (["data"; "footer"], VBytes (B [0; 15; 105; 6; 0; 0; 0; 0]));
  (["data"; "header"], VBytes (B [0; 15; 105; 6; 0; 2]));
  (["data"; "text"], VStr [68; 57; 46; 48; 48; 46; 48; 55; 46; 50; 49; 48; 46; 105; 77; 0; 65; 57; 46; 48; 48; 46; 48; 56; 46; 51; 48; 56; 46; 105; 77; 0; 79; 75; 48; 68; 77; 82; 0; 0; 0; 0; 0; 0; 0; 0; 0; 0; 82; 68; 57; 56; 53; 45; 48; 48; 48; 48; 48; 48; 48; 48; 45; 48; 48; 48; 48; 48; 48; 45; 85; 49; 45; 48; 45; 70; 0; 0; 0; 0; 49; 50; 51; 50; 48; 65; 48; 51; 49; 50; 0; 0; 0; 0; 0; 0])].
Proof. check. Qed.
