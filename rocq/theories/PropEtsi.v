(** Properties C08 - C12, C14, C51 (see properties.jsonl).  Only statements here: each theorem is
    closed by a lemma of the proof files, and followed by a concrete case. *)
From Verif Require Import PyBase Runtime Codec CodecSpec CodecProofs Enums Getters Spec EtsiModel EtsiSpec EtsiProofs EtsiHeader EtsiCor.
Open Scope string_scope.
Open Scope list_scope.
Open Scope Z_scope.

(** * C08 *)
Theorem C08_csbk_decoding : forall b, from_bytes p_DmrCsbk b = csbk_spec b.
Proof. exact csbk_ok. Qed.
Print Assumptions C08_csbk_decoding.

(** no other opcode than the six has content, and then two octets are enough *)
Theorem C08_csbk_unknown_opcode : forall b, 2 <= blen b -> ~ In (ubits b 2 6) [0x04; 0x05; 0x07; 0x26; 0x38; 0x3d] ->
  exists v, from_bytes p_DmrCsbk b = Ok v /\ getattr "csbk_data" v = None /\
            getattr "last_block" v = Some (VBool (bit b 0)) /\ getattr "protect_flag" v = Some (VBool (bit b 1)) /\
            getattr "csbk_opcode" v = Some (resolve_enum DmrCsbk_CsbkoTypes (ubits b 2 6)) /\
            getattr "feature_set_id" v = Some (VInt (ubits b 8 8)).
Proof.
  intros b H Hn. eexists. split; [rewrite csbk_ok; apply csbk_unknown; [exact H|]|repeat split; reflexivity].
  apply select_notin. exact Hn.
Qed.
Print Assumptions C08_csbk_unknown_opcode.

(** with one of the six opcodes: ten octets or EOFError *)
Theorem C08_csbk_length : forall b, In (ubits b 2 6) [0x04; 0x05; 0x07; 0x26; 0x38; 0x3d] ->
  (10 <= blen b /\ exists v, from_bytes p_DmrCsbk b = Ok v) \/ (blen b < 10 /\ from_bytes p_DmrCsbk b = Err EOFError).
Proof. intros b H. rewrite csbk_ok. apply csbk_total. apply select_in. exact H. Qed.
Print Assumptions C08_csbk_length.

(** preamble CSBK: target 0x2338, source 0x1f5b9, 5 blocks to follow *)
Example C08_case : from_bytes p_DmrCsbk (B [0xbd;0;0x80;5;0;0x23;0x38;1;0xf5;0xb9;0xaa;0xbb]) =
  Ok (VObj "DmrCsbk" [("last_block", VBool true); ("protect_flag", VBool false);
    ("csbk_opcode", VEnum "DmrCsbk.CsbkoTypes" "preamble" 61); ("feature_set_id", VInt 0);
    ("csbk_data", VObj "DmrCsbk.PreambleData" [
       ("preamble_data_or_csbk", VEnum "DmrCsbk.CsbkDataOrCsbk" "data_content_follows_preambles" 1);
       ("group_or_individual", VEnum "DmrCsbk.CsbkGroupOrIndividual" "target_address_is_an_individual" 0);
       ("preamble_reserved", VInt 0); ("preamble_csbk_blocks_to_follow", VInt 5);
       ("target_address", VInt 0x2338); ("source_address", VInt 0x1f5b9)])]).
Proof. vm_compute. reflexivity. Qed.

(** * C09 *)
(** opening needs one octet *)
Theorem C09_data_header_opens : forall b,
  (1 <= blen b /\ exists o, open_object p_DmrDataHeader b = Ok o) \/ (blen b = 0 /\ open_object p_DmrDataHeader b = Err EOFError).
Proof. exact header_opens. Qed.
Print Assumptions C09_data_header_opens.

Theorem C09_data_header_body : forall rt b o, open_object p_DmrDataHeader b = Ok o ->
  fst (DmrDataHeader_data rt o) = data_header_spec b.
Proof. exact header_data. Qed.
Print Assumptions C09_data_header_body.

(** the body always decodes when there are twelve octets *)
Theorem C09_data_header_total : forall b, 12 <= blen b -> exists v, data_header_spec b = Ok v.
Proof. exact data_header_total. Qed.
Print Assumptions C09_data_header_total.

(** [appended_blocks], on every access and whatever happened to the stream in between *)
Theorem C09_appended_blocks : forall rt p b o ops,
  In p [p_DmrDataHeader_DataHeaderShortRaw rt; p_DmrDataHeader_DataHeaderShortDefined rt; p_DmrDataHeader_DataHeaderShortStatusPrecoded rt] ->
  open_object p b = Ok o ->
  let n := 16 * ubits b 2 2 + ubits b 12 4 in
  0 <= n < 64 /\
  Forall (fun ob => ob_result ob = Ok (VInt n) /\ ob_after ob = ob_before ob) (history rt (fun _ => appended_blocks) ops o).
Proof. exact appended_blocks_all. Qed.
Print Assumptions C09_appended_blocks.

Example C09_case : exists o, open_object p_DmrDataHeader (B [0x7d;0x97;1;2;3;4;5;6;0x2f;7;0xab;0xcd;0xee]) = Ok o /\
  fst (DmrDataHeader_data V010 o) = Ok (VObj "DmrDataHeader.DataHeaderShortDefined"
   [("llid_destination_is_group", VBool false); ("response_requested", VBool true); ("appended_blocks_msb", VInt 3);
    ("format", VEnum "DmrDataHeader.DataPacketFormats" "short_data_defined" 13);
    ("sap_identifier", VEnum "DmrDataHeader.SapIdentifiers" "proprietary_packet_data" 9); ("appended_blocks_lsb", VInt 7);
    ("llid_destination", VInt 0x010203); ("llid_source", VInt 0x040506);
    ("defined_data", VEnum "DmrDataHeader.DefinedDataFormats" "coding_8bit_8859_9" 11);
    ("selective_automatic_repeat_request", VBool true); ("full_message_flag", VBool true); ("bit_padding", VInt 7);
    ("crc", VBytes (B [0xab;0xcd]))]).
Proof. eexists. split; [reflexivity|]. vm_compute. reflexivity. Qed.

(** * C10 *)
Theorem C10_data_header_history : forall rt b o ops, open_object p_DmrDataHeader b = Ok o ->
  Forall (fun ob => ob_result ob = data_header_spec b /\ (12 <= blen b -> ob_after ob = ob_before ob))
         (history rt (fun _ => DmrDataHeader_data rt) ops o).
Proof. intros rt b o ops H. exact (header_history rt b ops o (header_open b o H)). Qed.
Print Assumptions C10_data_header_history.

Theorem C10_data_header_short : forall rt b o ops, open_object p_DmrDataHeader b = Ok o -> blen b < 12 ->
  Forall (fun ob => ob_result ob = Err EOFError) (history rt (fun _ => DmrDataHeader_data rt) ops o).
Proof. exact header_short. Qed.
Print Assumptions C10_data_header_short.

(** ... but a failing access does move the stream: the statement that no access ever moves it is false *)
Theorem C10_failing_access_moves_stream_refuted :
  exists b o, open_object p_DmrDataHeader b = Ok o /\ s_pos (l_io (snd (DmrDataHeader_data V010 o))) <> s_pos (l_io o).
Proof. exists (B [1;2;3]). eexists. split; [reflexivity|]. vm_compute. discriminate. Qed.
Print Assumptions C10_failing_access_moves_stream_refuted.

Example C10_case : let b := B [0x7d;0x97;1;2;3;4;5;6;0x2f;7;0xab;0xcd;0xee] in
  exists o, open_object p_DmrDataHeader b = Ok o /\
  map (fun ob => (ob_before ob, ob_after ob)) (history V011 (fun _ => DmrDataHeader_data V011) [Get "data"; Seek 7; Get "data"; Get "data"; Seek 0; Get "data"] o)
   = [(1,1); (7,7); (7,7); (0,0)]%nat.
Proof. eexists. split; [reflexivity|]. vm_compute. reflexivity. Qed.

(** * C11 *)
Theorem C11_full_link_control_decoding : forall rt b, from_bytes (p_FullLinkControl rt) b = flc_spec b.
Proof. exact flc_ok. Qed.
Print Assumptions C11_full_link_control_decoding.

Example C11_case : from_bytes (p_FullLinkControl V010) (B [0;0x10;0x20;0;0x23;0x38;1;0xf5;0xb9;1;2;3]) =
  Ok (VObj "FullLinkControl" [("protect_flag", VBool false); ("reserved", VBool false);
     ("full_link_control_opcode", VEnum "FullLinkControl.Flcos" "group_voice" 0);
     ("feature_set_id", VInt 16);
     ("specific_data", VObj "FullLinkControl.GroupVoiceChannelUser" [("service_options", VInt 0x20); ("group_address", VInt 0x2338); ("source_address", VInt 0x1f5b9)]);
     ("crc_checksum", VBytes (B [1;2;3]))]).
Proof. vm_compute. reflexivity. Qed.

(** * C12 *)
Theorem C12_checksum_by_length : forall rt b, In (ubits b 2 6) [0; 3; 4; 5; 6; 7; 8] ->
  let r := from_bytes (p_FullLinkControl rt) b in
  (blen b <= 9 -> r = Err EOFError) /\
  (9 < blen b -> exists v d, r = Ok v /\ getattr "specific_data" v = Some d) /\
  (blen b = 10 -> forall v, r = Ok v -> getattr "cs5_checksum" v = Some (VInt (ubits b 72 5)) /\ getattr "crc_checksum" v = None) /\
  (blen b = 11 -> forall v, r = Ok v -> getattr "cs5_checksum" v = None /\ getattr "crc_checksum" v = None) /\
  (12 <= blen b -> forall v, r = Ok v -> getattr "cs5_checksum" v = None /\ getattr "crc_checksum" v = Some (VBytes (slice b 9 3))).
Proof. intros rt b H. cbv zeta. rewrite flc_ok. apply flc_known. apply select_in. exact H. Qed.
Print Assumptions C12_checksum_by_length.

(** An unknown FLCO skips no content octets, so that the checksums are taken from the content
    position, and short words get both of them. *)
Theorem C12_checksum_unknown_flco : forall rt b, ~ In (ubits b 2 6) [0; 3; 4; 5; 6; 7; 8] -> 2 <= blen b ->
  match from_bytes (p_FullLinkControl rt) b with
  | Ok v => getattr "specific_data" v = None /\
            getattr "crc_checksum" v = (if 5 <=? blen b then Some (VBytes (slice b 2 3)) else None) /\
            getattr "cs5_checksum" v = (if blen b <=? 10 then Some (VInt (ubits b (if 5 <=? blen b then 40 else 16) 5)) else None)
  | Err e => e = EOFError /\ (blen b = 2 \/ blen b = 5)
  end.
Proof. intros rt b Hn H. rewrite flc_ok. apply flc_unknown; [|exact H]. apply select_notin. exact Hn. Qed.
Print Assumptions C12_checksum_unknown_flco.

Example C12_case10 : exists v, from_bytes (p_FullLinkControl V011) (B [0;0x10;0x20;0;0x23;0x38;1;0xf5;0xb9;0xd0]) = Ok v /\
  getattr "cs5_checksum" v = Some (VInt 26).
Proof. eexists. split; vm_compute; reflexivity. Qed.
Example C12_case_unknown : exists v, from_bytes (p_FullLinkControl V011) (B [1;0x10;0x20;0;0x23;0x38;1;0xf5;0xb9;0xd0]) = Ok v /\
  getattr "cs5_checksum" v = Some (VInt 7) /\ getattr "crc_checksum" v = Some (VBytes (B [0x20;0;0x23])).
Proof. eexists. split; [vm_compute; reflexivity|]. vm_compute. repeat split; reflexivity. Qed.

(** * C14 *)
Theorem C14_compressed_udp_decoding : forall rt b, from_bytes (p_DmrIpUdp_UdpIpv4CompressedHeader rt) b = udp_spec b.
Proof. exact udp_ok. Qed.
Print Assumptions C14_compressed_udp_decoding.

(** nothing of the packet is lost *)
Theorem C14_compressed_udp_partition : forall rt b v, from_bytes (p_DmrIpUdp_UdpIpv4CompressedHeader rt) b = Ok v ->
  let src := match getattr "udp_source_port" v with Some (VBytes l) => l | _ => [] end in
  let dst := match getattr "udp_destination_port" v with Some (VBytes l) => l | _ => [] end in
  exists ident data, getattr "ipv4_identification" v = Some (VBytes ident) /\ getattr "user_data" v = Some (VBytes data) /\
    b = ident ++ slice b 2 3 ++ src ++ dst ++ data /\
    (getattr "udp_source_port" v <> None <-> ubits b 25 7 = 0) /\
    (getattr "udp_destination_port" v <> None <-> ubits b 33 7 = 0).
Proof. exact udp_partition. Qed.
Print Assumptions C14_compressed_udp_partition.

Example C14_case : exists v, from_bytes (p_DmrIpUdp_UdpIpv4CompressedHeader V010) (B [0x12;0x34;0x12;0x80;0x61;0x0f;0xa0;9;8;7]) = Ok v /\
  getattr "udp_source_port" v = Some (VBytes (B [0x0f;0xa0])) /\ getattr "udp_destination_port" v = None /\
  getattr "user_data" v = Some (VBytes (B [9;8;7])).
Proof. eexists. split; [vm_compute; reflexivity|]. vm_compute. repeat split; reflexivity. Qed.

(** * C51 *)
Theorem C51_decode_lossless : forall e l s, decode_text e l = Some s -> encode_text e s = Some l /\ forallb scalar s = true.
Proof. intros e l s H. split; [exact (decode_encode e l s H)|exact (decode_scalar e l s H)]. Qed.
Print Assumptions C51_decode_lossless.

Theorem C51_encode_then_decode : forall e s, e <> ASCII -> forallb scalar s = true ->
  exists l, encode_text e s = Some l /\ decode_text e l = Some s.
Proof. exact encode_roundtrip. Qed.
Print Assumptions C51_encode_then_decode.

Theorem C51_encode_then_decode_ascii : forall s, forallb (fun c => (0 <=? c) && (c <? 128)) s = true ->
  exists l, encode_text ASCII s = Some l /\ decode_text ASCII l = Some s.
Proof. exact encode_roundtrip_ascii. Qed.
Print Assumptions C51_encode_then_decode_ascii.

(** strict: what does not come from encoding some text is rejected *)
Theorem C51_strict : forall e l, decode_text e l = None <-> (forall s, encode_text e s <> Some l).
Proof. exact decode_strict. Qed.
Print Assumptions C51_strict.

Example C51_case : decode_text UTF8 (B [0x41; 0xc3;0xa9; 0xe2;0x82;0xac; 0xf0;0x9f;0x98;0x80]) = Some [0x41; 0xe9; 0x20ac; 0x1f600] /\
  decode_text UTF16LE (B [0x3d;0xd8;0x00;0xde]) = Some [0x1f600] /\ decode_text UTF8 (B [0xc0;0x80]) = None /\
  decode_text UTF16LE (B [0;0xd8]) = None /\ decode_text UTF16LE (B [0x41]) = None /\ decode_text ASCII (B [0x80]) = None.
Proof. vm_compute. repeat split; reflexivity. Qed.
