(** Properties C15 - C19 (see properties.jsonl).  Statements; the proofs are in HomebrewProofs.v and
    HomebrewCor.v.  Each theorem is followed by a concrete case. *)
From Verif Require Import PyBase Runtime Codec CodecSpec CodecProofs Enums Getters Spec BitSpec RuntimeProofs TilesProofs HomebrewModel HomebrewSpec HomebrewProofs HomebrewCor.
Open Scope string_scope.
Open Scope list_scope.
Open Scope Z_scope.

(** * C15 *)
(** The object and every exception, for every input, are those of the command table of HomebrewSpec.v. *)
Theorem C15_homebrew_decoding : forall rt b, from_bytes (p_Homebrew2015 rt) b = Homebrew2015_spec b.
Proof. exact homebrew_ok. Qed.
Print Assumptions C15_homebrew_decoding.

(** four decodable characters that are no command: the prefix and nothing else *)
Theorem C15_homebrew_unknown_command : forall rt b s, decode_text UTF8 (slice b 0 4) = Some s -> 4 <= blen b ->
  ~ In (slice b 0 4) (map blit ["RPTL"; "RPTK"; "RPTC"; "RPTP"; "MSTA"; "MSTN"; "MSTP"; "MSTC"; "DMRD"]) ->
  from_bytes (p_Homebrew2015 rt) b = Ok (VObj "Homebrew2015" [("command_prefix", VStr s)]).
Proof.
  intros rt b s Hd Hl Hn. rewrite homebrew_ok. unfold Homebrew2015_spec. destruct (Z.ltb_spec (blen b) 4); [lia|]. rewrite Hd, find_notin; [reflexivity|].
  exact Hn.
Qed.
Print Assumptions C15_homebrew_unknown_command.

Theorem C15_homebrew_undecodable : forall rt b, (blen b < 4 -> from_bytes (p_Homebrew2015 rt) b = Err EOFError) /\
  (4 <= blen b -> decode_text UTF8 (slice b 0 4) = None -> from_bytes (p_Homebrew2015 rt) b = Err (UnicodeDecodeError "utf-8")).
Proof.
  intros rt b. rewrite homebrew_ok. unfold Homebrew2015_spec. split; intros Hl; [|intros Hd]; destruct (Z.ltb_spec (blen b) 4); try lia; [reflexivity|]. rewrite Hd. reflexivity.
Qed.
Print Assumptions C15_homebrew_undecodable.

Example C15_case : from_bytes (p_Homebrew2015 V010) (blit "MSTPING" ++ B [0;0x23;0x38;0x0a]) = Ok (VObj "Homebrew2015"
  [("command_prefix", VStr (lit "MSTP")); ("command_data", VObj "Homebrew2015.TypeMasterPing" [("magic", VBytes (blit "ING")); ("repeater_id", VInt 0x23380a)])]).
Proof. vm_compute. reflexivity. Qed.
Example C15_case_magic : from_bytes (p_Homebrew2015 V011) (blit "MSTPINK" ++ B [0;0x23;0x38;0x0a]) =
  Err (ValidationNotEqualError (VBytes (blit "ING")) (VBytes (blit "INK")) "/types/type_master_ping/seq/0").
Proof. vm_compute. reflexivity. Qed.
Example C15_case_unknown : from_bytes (p_Homebrew2015 V011) (B [0xe2;0x82;0xac;0x41;1;2]) = Ok (VObj "Homebrew2015" [("command_prefix", VStr [0x20ac; 0x41])]).
Proof. vm_compute. reflexivity. Qed.

(** * C16 *)
(** a DMRD packet: every field, by position in the packet *)
Theorem C16_homebrew_dmrd : forall rt b, slice b 0 4 = blit "DMRD" ->
  (blen b < 53 -> from_bytes (p_Homebrew2015 rt) b = Err EOFError) /\
  (53 <= blen b -> from_bytes (p_Homebrew2015 rt) b = Ok (VObj "Homebrew2015" [("command_prefix", VStr (lit "DMRD"));
     ("command_data", VObj "Homebrew2015.TypeDmrData" ([
        ("sequence_no", VInt (ubits b 32 8)); ("source_id", VInt (ubits b 40 24)); ("target_id", VInt (ubits b 64 24));
        ("repeater_id", VInt (ubits b 88 32)); ("slot_no", resolve_enum Homebrew2015_Timeslots (ubits b 120 1));
        ("call_type", resolve_enum Homebrew2015_CallTypes (ubits b 121 1)); ("frame_type", resolve_enum Homebrew2015_FrameTypes (ubits b 122 2));
        ("data_type", VInt (ubits b 124 4)); ("stream_id", VInt (ubits b 128 32)); ("dmr_data", VBytes (slice b 20 33))] ++
        (if 54 <=? blen b then [("bit_error_rate", VInt (ubits b 424 8))] else []) ++
        (if 55 <=? blen b then [("rssi", VInt (ubits b 432 8))] else [])))])).
Proof.
  intros rt b H. rewrite homebrew_ok, (hb_dispatch b "DMRD" (cmd Homebrew2015_dmrd) H) by reflexivity. unfold cmd.
  split; intros Hl; [rewrite dmrd_hb_short|rewrite dmrd_hb_ok]; try assumption; reflexivity.
Qed.
Print Assumptions C16_homebrew_dmrd.

Theorem C16_mmdvm_dmrd : forall rt b, slice b 0 4 = blit "DMRD" ->
  (blen b < 53 -> from_bytes (p_Mmdvm2020 rt) b = Err EOFError) /\
  (53 <= blen b -> from_bytes (p_Mmdvm2020 rt) b = Ok (VObj "Mmdvm2020" [("command_prefix", VStr (lit "DMRD"));
     ("command_data", VObj "Mmdvm2020.TypeDmrData" ([
        ("sequence_no", VInt (ubits b 32 8)); ("source_id", VInt (ubits b 40 24)); ("target_id", VInt (ubits b 64 24));
        ("repeater_id", VInt (ubits b 88 32)); ("slot_no", resolve_enum Mmdvm2020_Timeslots (ubits b 120 1));
        ("call_type", resolve_enum Mmdvm2020_CallTypes (ubits b 121 1)); ("frame_type", resolve_enum Mmdvm2020_FrameTypes (ubits b 122 2));
        ("data_type", VInt (ubits b 124 4)); ("stream_id", VInt (ubits b 128 32)); ("dmr_data", VBytes (slice b 20 33))] ++
        (if 54 <=? blen b then [("bit_error_rate", VInt (ubits b 424 8))] else []) ++
        (if 55 <=? blen b then [("rssi", VInt (ubits b 432 8))] else [])))])).
Proof.
  intros rt b H. rewrite mmdvm_ok, (mm_dispatch b "DMRD" (cmd Mmdvm2020_dmrd) H) by reflexivity. unfold cmd.
  split; intros Hl; [rewrite dmrd_mm_short|rewrite dmrd_mm_ok]; try assumption; reflexivity.
Qed.
Print Assumptions C16_mmdvm_dmrd.

Definition dmrd_packet (tail : bytes) : bytes :=
  blit "DMRD" ++ B [7; 0x23;0x38;1; 0;0;91; 0;0x23;0x38;0x0a; 0xa1; 1;2;3;4] ++ List.repeat (zb 0x55) 33 ++ tail.
Example C16_case : exists v, from_bytes (p_Mmdvm2020 V010) (dmrd_packet (B [3; 60])) = Ok (VObj "Mmdvm2020" [("command_prefix", VStr (lit "DMRD")); ("command_data", v)]) /\
  getattr "source_id" v = Some (VInt 2308097) /\ getattr "target_id" v = Some (VInt 91) /\
  getattr "slot_no" v = Some (resolve_enum Mmdvm2020_Timeslots 1) /\ getattr "data_type" v = Some (VInt 1) /\
  getattr "bit_error_rate" v = Some (VInt 3) /\ getattr "rssi" v = Some (VInt 60).
Proof. eexists. split; [vm_compute; reflexivity|]. vm_compute. repeat split; reflexivity. Qed.
Example C16_case_short : from_bytes (p_Homebrew2015 V010) (dmrd_packet []) <> Err EOFError /\ from_bytes (p_Homebrew2015 V010) (removelast (dmrd_packet [])) = Err EOFError.
Proof. split; vm_compute; [discriminate|reflexivity]. Qed.

(** * C17 *)
(** what the fifth byte decides; [data] is the decoded content and what it is decoded from starts at byte 4 *)
Theorem C17_homebrew_closing_or_configuration : forall rt b, slice b 0 4 = blit "RPTC" -> 5 <= blen b ->
  let fifth := bz (nth 4 b Byte.x00) in
  let r := from_bytes (p_Homebrew2015 rt) b in
  let object_with d := VObj "Homebrew2015" [("command_prefix", VStr (lit "RPTC")); ("_m_fifth_letter", VStr [fifth]);
                         ("command_data", VObj "Homebrew2015.TypeRepeaterConfigurationOrClosing" [("data", d)])] in
  (128 <= fifth -> r = Err (UnicodeDecodeError "ascii")) /\
  (fifth = 0x4c -> 9 <= blen b -> r = Ok (object_with (VObj "Homebrew2015.TypeRepeaterClosing" [("magic", VBytes (blit "L")); ("repeater_id", VInt (ubits b 40 32))]))) /\
  (fifth = 0x4c -> blen b < 9 -> r = Err EOFError) /\
  (fifth < 128 -> fifth <> 0x4c -> r = rmap object_with (Homebrew2015_config b 4)).
Proof. intros rt b H Hl. cbv zeta. rewrite homebrew_ok. exact (rptc_cases_hb b H Hl). Qed.
Print Assumptions C17_homebrew_closing_or_configuration.

Theorem C17_mmdvm_closing_or_configuration : forall rt b, slice b 0 4 = blit "RPTC" -> 5 <= blen b ->
  let fifth := bz (nth 4 b Byte.x00) in
  let r := from_bytes (p_Mmdvm2020 rt) b in
  let object_with d := VObj "Mmdvm2020" [("command_prefix", VStr (lit "RPTC")); ("_m_fifth_letter", VStr [fifth]);
                         ("command_data", VObj "Mmdvm2020.TypeRepeaterConfigurationOrClosing" [("data", d)])] in
  (128 <= fifth -> r = Err (UnicodeDecodeError "ascii")) /\
  (fifth = 0x4c -> 9 <= blen b -> r = Ok (object_with (VObj "Mmdvm2020.TypeRepeaterClosing" [("magic", VBytes (blit "L")); ("repeater_id", VInt (ubits b 40 32))]))) /\
  (fifth = 0x4c -> blen b < 9 -> r = Err EOFError) /\
  (fifth < 128 -> fifth <> 0x4c -> r = rmap object_with (Mmdvm2020_config b 4)).
Proof. intros rt b H Hl. cbv zeta. rewrite mmdvm_ok. exact (rptc_cases_mm b H Hl). Qed.
Print Assumptions C17_mmdvm_closing_or_configuration.

(** the lookahead itself: on any parsed object, at any moment, any number of times, it gives the fifth
    character and leaves the stream where it was *)
Theorem C17_homebrew_lookahead : forall rt b o ops, open_object (p_Homebrew2015 rt) b = Ok o ->
  Forall (fun ob => ob_result ob = (if blen b <=? 4 then Err EOFError
                                   else match decode_text ASCII (slice b 4 1) with Some c => Ok (VStr c) | None => Err (UnicodeDecodeError "ascii") end) /\
                    (forall v, ob_result ob = Ok v -> ob_after ob = ob_before ob))
         (history rt (fun _ => Homebrew2015_fifth_letter_property rt) ops o).
Proof. intros rt b o ops H. exact (fifth_history rt b o ops _ eq_refl (hb_attrs rt b o H)). Qed.
Print Assumptions C17_homebrew_lookahead.
Theorem C17_mmdvm_lookahead : forall rt b o ops, open_object (p_Mmdvm2020 rt) b = Ok o ->
  Forall (fun ob => ob_result ob = (if blen b <=? 4 then Err EOFError
                                   else match decode_text ASCII (slice b 4 1) with Some c => Ok (VStr c) | None => Err (UnicodeDecodeError "ascii") end) /\
                    (forall v, ob_result ob = Ok v -> ob_after ob = ob_before ob))
         (history rt (fun _ => Mmdvm2020_fifth_letter_property rt) ops o).
Proof. intros rt b o ops H. exact (fifth_history rt b o ops _ eq_refl (mm_attrs rt b o H)). Qed.
Print Assumptions C17_mmdvm_lookahead.

(** A configuration packet: command, repeater id, 294 bytes of text. *)
Definition config_packet (id : Z) (text : bytes) : bytes := blit "RPTC" ++ B [id / 16777216; id / 65536 mod 256; id / 256 mod 256; id mod 256] ++ text.

(** The expectation that such a packet is decoded as configuration whatever the id is false: ids
    0x4c000000 .. 0x4cffffff are taken for a closing message (and lose their first byte) ... *)
Theorem C17_configuration_for_every_id_refuted : forall rt id text, 0x4c000000 <= id < 0x4d000000 -> blen text = 294 ->
  exists n, from_bytes (p_Homebrew2015 rt) (config_packet id text) = Ok (VObj "Homebrew2015" [("command_prefix", VStr (lit "RPTC")); ("_m_fifth_letter", VStr (lit "L"));
      ("command_data", VObj "Homebrew2015.TypeRepeaterConfigurationOrClosing" [("data", VObj "Homebrew2015.TypeRepeaterClosing" [("magic", VBytes (blit "L")); ("repeater_id", VInt n)])])]).
Proof.
  intros rt id text Hid Hl. destruct (C17_homebrew_closing_or_configuration rt (config_packet id text)) as [_ [H _]].
  - reflexivity.
  - unfold config_packet, blen. rewrite !app_length. cbn. unfold blen in Hl. lia.
  - assert (E : bz (nth 4 (config_packet id text) Byte.x00) = 0x4c).
    { unfold config_packet. cbn [blit app nth B map]. replace (id / 16777216) with 0x4c; [reflexivity|]. apply (Z.div_unique id 16777216 0x4c (id - 0x4c000000)); lia. }
    rewrite E in H. rewrite H; [eexists; reflexivity|reflexivity|]. unfold config_packet, blen. rewrite !app_length. cbn. unfold blen in Hl. lia.
Qed.
Print Assumptions C17_configuration_for_every_id_refuted.

(** ... and ids from 0x80000000 on are rejected. *)
Theorem C17_configuration_for_large_id_refuted : forall rt id text, 0x80000000 <= id < 0x100000000 ->
  from_bytes (p_Homebrew2015 rt) (config_packet id text) = Err (UnicodeDecodeError "ascii").
Proof.
  intros rt id text Hid. destruct (C17_homebrew_closing_or_configuration rt (config_packet id text)) as [H _].
  - reflexivity.
  - unfold config_packet, blen. rewrite !app_length. cbn. lia.
  - apply H. unfold config_packet. cbn [blit app nth B map].
    assert (128 <= id / 16777216 < 256) by (split; [apply Z.div_le_lower_bound|apply Z.div_lt_upper_bound]; lia).
    rewrite bz_zb; lia.
Qed.
Print Assumptions C17_configuration_for_large_id_refuted.

Definition a_text : bytes := List.repeat (zb 0x41) 294.
Example C17_case : exists v, from_bytes (p_Homebrew2015 V010) (config_packet 2308106 a_text) = Ok v /\
  match getattr "command_data" v with Some c => match getattr "data" c with Some (VObj cls d) => (cls, lookup "repeater_id" d) | _ => ("", None) end | None => ("", None) end
  = ("Homebrew2015.TypeRepeaterConfiguration", Some (VInt 2308106)).
Proof. eexists. split; [vm_compute; reflexivity|]. vm_compute. reflexivity. Qed.
Example C17_case_history : let b := config_packet 2308106 a_text in exists o, open_object (p_Mmdvm2020 V010) b = Ok o /\
  map (fun ob => (ob_result ob, ob_before ob, ob_after ob)) (history V010 (fun _ => Mmdvm2020_fifth_letter_property V010) [Get "fifth_letter"; Seek 9; Get "fifth_letter"] o)
  = [(Ok (VStr [0%Z]), 302, 302); (Ok (VStr [0%Z]), 9, 9)]%nat.
Proof. eexists. split; [vm_compute; reflexivity|]. vm_compute. reflexivity. Qed.

(** * C18 *)
(** A configuration packet decodes exactly when it has 302 bytes and all its text is ASCII. *)
Theorem C18_homebrew_configuration_accepts : forall rt b, slice b 0 4 = blit "RPTC" -> bz (nth 4 b Byte.x00) < 128 -> bz (nth 4 b Byte.x00) <> 0x4c ->
  ((exists v, from_bytes (p_Homebrew2015 rt) b = Ok v) <-> 302 <= blen b /\ forall i, 8 <= i < blen b -> bz (nth (Z.to_nat i) b Byte.x00) < 128) /\
  (302 <= blen b -> (exists i, 8 <= i < blen b /\ 128 <= bz (nth (Z.to_nat i) b Byte.x00)) -> from_bytes (p_Homebrew2015 rt) b = Err (UnicodeDecodeError "ascii")).
Proof. intros rt b H H1 H2. rewrite homebrew_ok. exact (config_accept_hb b H H1 H2). Qed.
Print Assumptions C18_homebrew_configuration_accepts.
Theorem C18_mmdvm_configuration_accepts : forall rt b, slice b 0 4 = blit "RPTC" -> bz (nth 4 b Byte.x00) < 128 -> bz (nth 4 b Byte.x00) <> 0x4c ->
  ((exists v, from_bytes (p_Mmdvm2020 rt) b = Ok v) <-> 302 <= blen b /\ forall i, 8 <= i < blen b -> bz (nth (Z.to_nat i) b Byte.x00) < 128) /\
  (302 <= blen b -> (exists i, 8 <= i < blen b /\ 128 <= bz (nth (Z.to_nat i) b Byte.x00)) -> from_bytes (p_Mmdvm2020 rt) b = Err (UnicodeDecodeError "ascii")).
Proof. intros rt b H H1 H2. rewrite mmdvm_ok. exact (config_accept_mm b H H1 H2). Qed.
Print Assumptions C18_mmdvm_configuration_accepts.

(** Re-encoding: writing the repeater id as 32 bits and every text as its ASCII bytes, one after the
    other in the documented widths, gives the packet from byte 4 on. *)
Theorem C18_homebrew_configuration_roundtrip : forall rt b v, slice b 0 4 = blit "RPTC" -> bz (nth 4 b Byte.x00) <> 0x4c -> from_bytes (p_Homebrew2015 rt) b = Ok v ->
  exists h t, v = VObj "Homebrew2015" [("command_prefix", VStr (lit "RPTC")); ("_m_fifth_letter", VStr [bz (nth 4 b Byte.x00)]);
      ("command_data", VObj "Homebrew2015.TypeRepeaterConfigurationOrClosing" [("data", VObj "Homebrew2015.TypeRepeaterConfiguration" (h ++ [("unparsed_data", VStr t)]))])] /\
    table_bits L_Homebrew2015_TypeRepeaterConfiguration h = Some (bytes_bits (slice b 4 298)) /\ encode_text ASCII t = Some (rest b 302).
Proof. intros rt b v. rewrite homebrew_ok. exact (config_reencoded_hb b v). Qed.
Print Assumptions C18_homebrew_configuration_roundtrip.
Theorem C18_mmdvm_configuration_roundtrip : forall rt b v, slice b 0 4 = blit "RPTC" -> bz (nth 4 b Byte.x00) <> 0x4c -> from_bytes (p_Mmdvm2020 rt) b = Ok v ->
  exists h t, v = VObj "Mmdvm2020" [("command_prefix", VStr (lit "RPTC")); ("_m_fifth_letter", VStr [bz (nth 4 b Byte.x00)]);
      ("command_data", VObj "Mmdvm2020.TypeRepeaterConfigurationOrClosing" [("data", VObj "Mmdvm2020.TypeRepeaterConfiguration" (h ++ [("unparsed_data", VStr t)]))])] /\
    table_bits L_Mmdvm2020_TypeRepeaterConfiguration h = Some (bytes_bits (slice b 4 298)) /\ encode_text ASCII t = Some (rest b 302).
Proof. intros rt b v. rewrite mmdvm_ok. exact (config_reencoded_mm b v). Qed.
Print Assumptions C18_mmdvm_configuration_roundtrip.

(** so different packets give different objects *)
Theorem C18_homebrew_configuration_injective : forall rt b b' v, slice b 0 4 = blit "RPTC" -> slice b' 0 4 = blit "RPTC" ->
  bz (nth 4 b Byte.x00) <> 0x4c -> bz (nth 4 b' Byte.x00) <> 0x4c ->
  from_bytes (p_Homebrew2015 rt) b = Ok v -> from_bytes (p_Homebrew2015 rt) b' = Ok v -> b = b'.
Proof. intros rt b b' v. rewrite !homebrew_ok. exact (config_injective_hb b b' v). Qed.
Print Assumptions C18_homebrew_configuration_injective.
Theorem C18_mmdvm_configuration_injective : forall rt b b' v, slice b 0 4 = blit "RPTC" -> slice b' 0 4 = blit "RPTC" ->
  bz (nth 4 b Byte.x00) <> 0x4c -> bz (nth 4 b' Byte.x00) <> 0x4c ->
  from_bytes (p_Mmdvm2020 rt) b = Ok v -> from_bytes (p_Mmdvm2020 rt) b' = Ok v -> b = b'.
Proof. intros rt b b' v. rewrite !mmdvm_ok. exact (config_injective_mm b b' v). Qed.
Print Assumptions C18_mmdvm_configuration_injective.

Example C18_case : exists v, Mmdvm2020_config (config_packet 2308106 (blit "OK1ABC  4387125004307125000101 50.0000 014.0000000" ++ List.repeat (zb 0x41) 244)) 4 = Ok v /\
  getattr "call_sign" v = Some (VStr (lit "OK1ABC  ")) /\ getattr "rx_freq" v = Some (VStr (lit "438712500")).
Proof. eexists. split; [vm_compute; reflexivity|]. vm_compute. repeat split; reflexivity. Qed.

(** * C19 *)
Theorem C19_mmdvm_decoding : forall rt b, from_bytes (p_Mmdvm2020 rt) b = Mmdvm2020_spec b.
Proof. exact mmdvm_ok. Qed.
Print Assumptions C19_mmdvm_decoding.

Theorem C19_mmdvm_unknown_command : forall rt b s, decode_text ASCII (slice b 0 4) = Some s -> 4 <= blen b ->
  ~ In (slice b 0 4) (map blit ["RPTL"; "RPTK"; "RPTC"; "RPTA"; "RPTP"; "RPTO"; "RPTS"; "MSTN"; "MSTP"; "MSTC"; "DMRD"; "DMRA"; "DMRG"]) ->
  from_bytes (p_Mmdvm2020 rt) b = Ok (VObj "Mmdvm2020" [("command_prefix", VStr s)]).
Proof.
  intros rt b s Hd Hl Hn. rewrite mmdvm_ok. unfold Mmdvm2020_spec. destruct (Z.ltb_spec (blen b) 4); [lia|]. rewrite Hd, find_notin; [reflexivity|].
  exact Hn.
Qed.
Print Assumptions C19_mmdvm_unknown_command.

Theorem C19_mmdvm_undecodable : forall rt b, (blen b < 4 -> from_bytes (p_Mmdvm2020 rt) b = Err EOFError) /\
  (4 <= blen b -> (exists i, (i < 4)%nat /\ 128 <= bz (nth i b Byte.x00)) -> from_bytes (p_Mmdvm2020 rt) b = Err (UnicodeDecodeError "ascii")).
Proof. intros rt b. rewrite mmdvm_ok. exact (mm_undecodable b). Qed.
Print Assumptions C19_mmdvm_undecodable.

Example C19_case : from_bytes (p_Mmdvm2020 V011) (blit "DMRG" ++ B [0x23;0x38;1; 0x0b; 0x12;0x34;0x56; 0x11;0x22;0x33]) = Ok (VObj "Mmdvm2020"
  [("command_prefix", VStr (lit "DMRG")); ("command_data", VObj "Mmdvm2020.TypeRadioPosition"
     [("radio_id", VInt 0x233801); ("reserved", VInt 0); ("position_error", resolve_enum Mmdvm2020_PositionErrors 5); ("longitude", VInt 0x1123456); ("latitude", VInt 0x112233)])]).
Proof. vm_compute. reflexivity. Qed.
Example C19_case_options : exists v, from_bytes (p_Mmdvm2020 V010) (blit "RPTO" ++ B [0;0;0;7] ++ blit "TS2=91;") = Ok (VObj "Mmdvm2020" [("command_prefix", VStr (lit "RPTO")); ("command_data", v)]) /\
  getattr "options" v = Some (VStr (lit "TS2=91;")).
Proof. eexists. split; [vm_compute; reflexivity|]. vm_compute. reflexivity. Qed.
