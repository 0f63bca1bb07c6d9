(** Specification of the homebrew package.  The tables list every field of a structure with its
    bit offset inside the structure (the structure starts after the four command characters); they
    were taken from the format descriptions (okdmr/kaitai/homebrew/*.ksy), not from the Python code. *)
From Verif Require Import PyBase Codec Spec Enums.
Open Scope string_scope.
Open Scope list_scope.
Open Scope Z_scope.

(** Text up to the end of the packet. *)
Definition text_rest (e : encoding) (b : bytes) (k : Z) : res pyval :=
  match decode_text e (rest b k) with
  | Some s => Ok (VStr s)
  | None => Err (UnicodeDecodeError (enc_name e))
  end.

(** * homebrew/homebrew2015.ksy *)

(** homebrew2015.ksy, type type_repeater_login_request; 32 bits *)
Definition L_Homebrew2015_TypeRepeaterLoginRequest : list field := [
    F "repeater_id" 0 (U 32)].

(** homebrew2015.ksy, type type_master_ping; 56 bits *)
Definition L_Homebrew2015_TypeMasterPing : list field := [
    F "magic" 0 (KMagic (B [73;78;71]) "/types/type_master_ping/seq/0");
    F "repeater_id" 24 (U 32)].

(** homebrew2015.ksy, type type_repeater_pong; 56 bits *)
Definition L_Homebrew2015_TypeRepeaterPong : list field := [
    F "magic" 0 (KMagic (B [79;78;71]) "/types/type_repeater_pong/seq/0");
    F "repeater_id" 24 (U 32)].

(** homebrew2015.ksy, type type_master_closing; 40 bits *)
Definition L_Homebrew2015_TypeMasterClosing : list field := [
    F "magic" 0 (KMagic (B [76]) "/types/type_master_closing/seq/0");
    F "repeater_id" 8 (U 32)].

(** homebrew2015.ksy, type type_master_not_accept; 48 bits *)
Definition L_Homebrew2015_TypeMasterNotAccept : list field := [
    F "magic" 0 (KMagic (B [65;75]) "/types/type_master_not_accept/seq/0");
    F "repeater_id" 16 (U 32)].

(** homebrew2015.ksy, type type_repeater_login_response; 288 bits *)
Definition L_Homebrew2015_TypeRepeaterLoginResponse : list field := [
    F "repeater_id" 0 (U 32);
    F "sha256" 32 (KBytes 32)].

(** homebrew2015.ksy, type type_repeater_closing; 40 bits *)
Definition L_Homebrew2015_TypeRepeaterClosing : list field := [
    F "magic" 0 (KMagic (B [76]) "/types/type_repeater_closing/seq/0");
    F "repeater_id" 8 (U 32)].


(** * homebrew/mmdvm2020.ksy *)

(** mmdvm2020.ksy, type type_talker_alias; 96 bits *)
Definition L_Mmdvm2020_TypeTalkerAlias : list field := [
    F "radio_id" 0 (U 24);
    F "talker_alias_type" 24 (Enm Mmdvm2020_TalkerAliasTypes 8);
    F "talker_alias" 32 (KStr ASCII 8)].

(** mmdvm2020.ksy, type type_repeater_login_request; 32 bits *)
Definition L_Mmdvm2020_TypeRepeaterLoginRequest : list field := [
    F "repeater_id" 0 (U 32)].

(** mmdvm2020.ksy, type type_repeater_ping; 56 bits *)
Definition L_Mmdvm2020_TypeRepeaterPing : list field := [
    F "magic" 0 (KMagic (B [73;78;71]) "/types/type_repeater_ping/seq/0");
    F "repeater_id" 24 (U 32)].

(** mmdvm2020.ksy, type type_master_pong; 56 bits *)
Definition L_Mmdvm2020_TypeMasterPong : list field := [
    F "magic" 0 (KMagic (B [79;78;71]) "/types/type_master_pong/seq/0");
    F "repeater_id" 24 (U 32)].

(** mmdvm2020.ksy, type type_master_closing; 40 bits *)
Definition L_Mmdvm2020_TypeMasterClosing : list field := [
    F "magic" 0 (KMagic (B [76]) "/types/type_master_closing/seq/0");
    F "repeater_id" 8 (U 32)].

(** mmdvm2020.ksy, type type_master_not_accept; 48 bits *)
Definition L_Mmdvm2020_TypeMasterNotAccept : list field := [
    F "magic" 0 (KMagic (B [65;75]) "/types/type_master_not_accept/seq/0");
    F "repeater_id" 16 (U 32)].

(** mmdvm2020.ksy, type type_master_repeater_ack; 48 bits *)
Definition L_Mmdvm2020_TypeMasterRepeaterAck : list field := [
    F "magic" 0 (KMagic (B [67;75]) "/types/type_master_repeater_ack/seq/0");
    F "repeater_id_or_challenge" 16 (U 32)].

(** mmdvm2020.ksy, type type_repeater_login_response; 288 bits *)
Definition L_Mmdvm2020_TypeRepeaterLoginResponse : list field := [
    F "repeater_id" 0 (U 32);
    F "sha256" 32 (KBytes 32)].

(** mmdvm2020.ksy, type type_repeater_closing; 40 bits *)
Definition L_Mmdvm2020_TypeRepeaterClosing : list field := [
    F "magic" 0 (KMagic (B [76]) "/types/type_repeater_closing/seq/0");
    F "repeater_id" 8 (U 32)].

(** mmdvm2020.ksy, type type_radio_position; 80 bits *)
Definition L_Mmdvm2020_TypeRadioPosition : list field := [
    F "radio_id" 0 (U 24);
    F "reserved" 24 (U 4);
    F "position_error" 28 (Enm Mmdvm2020_PositionErrors 3);
    F "longitude" 31 (U 25);
    F "latitude" 56 (U 24)].

(** mmdvm2020.ksy, type type_repeater_beacon; 0 bits *)
Definition L_Mmdvm2020_TypeRepeaterBeacon : list field := [
    ].



(** homebrew2015.ksy, type type_dmr_data: the 49 fixed bytes *)
Definition L_Homebrew2015_TypeDmrData : list field := [
    F "sequence_no" 0 (U 8);
    F "source_id" 8 (U 24);
    F "target_id" 32 (U 24);
    F "repeater_id" 56 (U 32);
    F "slot_no" 88 (Enm Homebrew2015_Timeslots 1);
    F "call_type" 89 (Enm Homebrew2015_CallTypes 1);
    F "frame_type" 90 (Enm Homebrew2015_FrameTypes 2);
    F "data_type" 92 (U 4);
    F "stream_id" 96 (U 32);
    F "dmr_data" 128 (KBytes 33)].

(** ... and the two optional bytes: present iff the packet has them *)
Definition Homebrew2015_dmrd (b : bytes) (k : Z) : res pyval :=
  let* h := fields b k L_Homebrew2015_TypeDmrData in
  let byte_if_present name p := if p <? blen b then [(name, VInt (ubits b (8 * p) 8))] else [] in
  Ok (VObj "Homebrew2015.TypeDmrData" (h ++ byte_if_present "bit_error_rate" (k + 49) ++ byte_if_present "rssi" (k + 50))).

(** mmdvm2020.ksy, type type_dmr_data: the 49 fixed bytes *)
Definition L_Mmdvm2020_TypeDmrData : list field := [
    F "sequence_no" 0 (U 8);
    F "source_id" 8 (U 24);
    F "target_id" 32 (U 24);
    F "repeater_id" 56 (U 32);
    F "slot_no" 88 (Enm Mmdvm2020_Timeslots 1);
    F "call_type" 89 (Enm Mmdvm2020_CallTypes 1);
    F "frame_type" 90 (Enm Mmdvm2020_FrameTypes 2);
    F "data_type" 92 (U 4);
    F "stream_id" 96 (U 32);
    F "dmr_data" 128 (KBytes 33)].

(** ... and the two optional bytes: present iff the packet has them *)
Definition Mmdvm2020_dmrd (b : bytes) (k : Z) : res pyval :=
  let* h := fields b k L_Mmdvm2020_TypeDmrData in
  let byte_if_present name p := if p <? blen b then [(name, VInt (ubits b (8 * p) 8))] else [] in
  Ok (VObj "Mmdvm2020.TypeDmrData" (h ++ byte_if_present "bit_error_rate" (k + 49) ++ byte_if_present "rssi" (k + 50))).

(** homebrew2015.ksy, type type_repeater_configuration: the 298 fixed bytes *)
Definition L_Homebrew2015_TypeRepeaterConfiguration : list field := [
    F "repeater_id" 0 (U 32);
    F "call_sign" 32 (KStr ASCII 8);
    F "rx_freq" 96 (KStr ASCII 9);
    F "tx_freq" 168 (KStr ASCII 9);
    F "tx_power" 240 (KStr ASCII 2);
    F "color_code" 256 (KStr ASCII 2);
    F "latitude" 272 (KStr ASCII 8);
    F "longitude" 336 (KStr ASCII 9);
    F "antenna_height_above_ground" 408 (KStr ASCII 3);
    F "location" 432 (KStr ASCII 20);
    F "description" 592 (KStr ASCII 20);
    F "url" 752 (KStr ASCII 124);
    F "software_id" 1744 (KStr ASCII 40);
    F "package_id" 2064 (KStr ASCII 40)].

(** ... and the text after them *)
Definition Homebrew2015_config (b : bytes) (k : Z) : res pyval :=
  let* h := fields b k L_Homebrew2015_TypeRepeaterConfiguration in
  let* t := text_rest ASCII b (k + 298) in
  Ok (VObj "Homebrew2015.TypeRepeaterConfiguration" (h ++ [("unparsed_data", t)])).

(** homebrew2015.ksy, type type_repeater_configuration_or_closing, with the ASCII character at byte 4
    deciding; the character is kept as [_m_fifth_letter] *)
Definition Homebrew2015_config_or_closing (b : bytes) : res attrs :=
  if blen b <=? 4 then Err EOFError
  else match decode_text ASCII (slice b 4 1) with
  | None => Err (UnicodeDecodeError "ascii")
  | Some c =>
      let* d := if bytes_eqb (slice b 4 1) (blit "L")
                then object "Homebrew2015.TypeRepeaterClosing" L_Homebrew2015_TypeRepeaterClosing b 4
                else Homebrew2015_config b 4 in
      Ok [("_m_fifth_letter", VStr c); ("command_data", VObj "Homebrew2015.TypeRepeaterConfigurationOrClosing" [("data", d)])]
  end.

(** mmdvm2020.ksy, type type_repeater_configuration: the 298 fixed bytes *)
Definition L_Mmdvm2020_TypeRepeaterConfiguration : list field := [
    F "repeater_id" 0 (U 32);
    F "call_sign" 32 (KStr ASCII 8);
    F "rx_freq" 96 (KStr ASCII 9);
    F "tx_freq" 168 (KStr ASCII 9);
    F "tx_power" 240 (KStr ASCII 2);
    F "color_code" 256 (KStr ASCII 2);
    F "latitude" 272 (KStr ASCII 8);
    F "longitude" 336 (KStr ASCII 9);
    F "antenna_height_above_ground" 408 (KStr ASCII 3);
    F "location" 432 (KStr ASCII 20);
    F "description" 592 (KStr ASCII 19);
    F "slots" 744 (KStr ASCII 1);
    F "url" 752 (KStr ASCII 124);
    F "software_id" 1744 (KStr ASCII 40);
    F "package_id" 2064 (KStr ASCII 40)].

(** ... and the text after them *)
Definition Mmdvm2020_config (b : bytes) (k : Z) : res pyval :=
  let* h := fields b k L_Mmdvm2020_TypeRepeaterConfiguration in
  let* t := text_rest ASCII b (k + 298) in
  Ok (VObj "Mmdvm2020.TypeRepeaterConfiguration" (h ++ [("unparsed_data", t)])).

(** mmdvm2020.ksy, type type_repeater_configuration_or_closing, with the ASCII character at byte 4
    deciding; the character is kept as [_m_fifth_letter] *)
Definition Mmdvm2020_config_or_closing (b : bytes) : res attrs :=
  if blen b <=? 4 then Err EOFError
  else match decode_text ASCII (slice b 4 1) with
  | None => Err (UnicodeDecodeError "ascii")
  | Some c =>
      let* d := if bytes_eqb (slice b 4 1) (blit "L")
                then object "Mmdvm2020.TypeRepeaterClosing" L_Mmdvm2020_TypeRepeaterClosing b 4
                else Mmdvm2020_config b 4 in
      Ok [("_m_fifth_letter", VStr c); ("command_data", VObj "Mmdvm2020.TypeRepeaterConfigurationOrClosing" [("data", d)])]
  end.

(** homebrew2015.ksy, type type_master_repeater_ack; random_number present iff there are more bytes *)
Definition L_Homebrew2015_TypeMasterRepeaterAck : list field := [
    F "magictype_master_repeater_ack" 0 (KMagic (B [67;75]) "/types/type_master_repeater_ack/seq/0");
    F "repeater_id" 16 (U 32)].
Definition Homebrew2015_ack (b : bytes) (k : Z) : res pyval :=
  let* h := fields b k L_Homebrew2015_TypeMasterRepeaterAck in
  let* r := if k + 6 <? blen b then fields b k [F "random_number" 48 (U 32)] else Ok [] in
  Ok (VObj "Homebrew2015.TypeMasterRepeaterAck" (h ++ r)).

(** mmdvm2020.ksy, type type_repeater_options: id and ASCII text up to the end *)
Definition L_Mmdvm2020_TypeRepeaterOptions : list field := [
    F "repeater_id" 0 (U 32)].
Definition Mmdvm2020_options (b : bytes) (k : Z) : res pyval :=
  let* h := fields b k L_Mmdvm2020_TypeRepeaterOptions in
  let* t := text_rest ASCII b (k + 4) in
  Ok (VObj "Mmdvm2020.TypeRepeaterOptions" (h ++ [("options", t)])).

(** * Commands *)
Definition cmd (f : bytes -> Z -> res pyval) (b : bytes) : res attrs :=
  let* v := f b 4 in Ok [("command_data", v)].

Fixpoint find_command (p : bytes) (t : list (string * (bytes -> res attrs))) : option (bytes -> res attrs) :=
  match t with
  | [] => None
  | (name, f) :: t' => if bytes_eqb p (blit name) then Some f else find_command p t'
  end.

(** command characters -> the attributes they add to the object *)
Definition Homebrew2015_commands : list (string * (bytes -> res attrs)) := [
    ("RPTL", cmd (object "Homebrew2015.TypeRepeaterLoginRequest" L_Homebrew2015_TypeRepeaterLoginRequest));
    ("RPTK", cmd (object "Homebrew2015.TypeRepeaterLoginResponse" L_Homebrew2015_TypeRepeaterLoginResponse));
    ("RPTC", Homebrew2015_config_or_closing);
    ("RPTP", cmd (object "Homebrew2015.TypeRepeaterPong" L_Homebrew2015_TypeRepeaterPong));
    ("MSTA", cmd Homebrew2015_ack);
    ("MSTN", cmd (object "Homebrew2015.TypeMasterNotAccept" L_Homebrew2015_TypeMasterNotAccept));
    ("MSTP", cmd (object "Homebrew2015.TypeMasterPing" L_Homebrew2015_TypeMasterPing));
    ("MSTC", cmd (object "Homebrew2015.TypeMasterClosing" L_Homebrew2015_TypeMasterClosing));
    ("DMRD", cmd Homebrew2015_dmrd)].

(** Dispatch on the first four characters. *)
Definition Homebrew2015_spec (b : bytes) : res pyval :=
  if blen b <? 4 then Err EOFError
  else match decode_text UTF8 (slice b 0 4) with
  | None => Err (UnicodeDecodeError (enc_name UTF8))
  | Some prefix =>
      let* d := match find_command (slice b 0 4) Homebrew2015_commands with Some f => f b | None => Ok [] end in
      Ok (VObj "Homebrew2015" ([("command_prefix", VStr prefix)] ++ d))
  end.

(** command characters -> the attributes they add to the object *)
Definition Mmdvm2020_commands : list (string * (bytes -> res attrs)) := [
    ("RPTL", cmd (object "Mmdvm2020.TypeRepeaterLoginRequest" L_Mmdvm2020_TypeRepeaterLoginRequest));
    ("RPTK", cmd (object "Mmdvm2020.TypeRepeaterLoginResponse" L_Mmdvm2020_TypeRepeaterLoginResponse));
    ("RPTC", Mmdvm2020_config_or_closing);
    ("RPTA", cmd (object "Mmdvm2020.TypeMasterRepeaterAck" L_Mmdvm2020_TypeMasterRepeaterAck));
    ("RPTP", cmd (object "Mmdvm2020.TypeRepeaterPing" L_Mmdvm2020_TypeRepeaterPing));
    ("RPTO", cmd Mmdvm2020_options);
    ("RPTS", cmd (object "Mmdvm2020.TypeRepeaterBeacon" L_Mmdvm2020_TypeRepeaterBeacon));
    ("MSTN", cmd (object "Mmdvm2020.TypeMasterNotAccept" L_Mmdvm2020_TypeMasterNotAccept));
    ("MSTP", cmd (object "Mmdvm2020.TypeMasterPong" L_Mmdvm2020_TypeMasterPong));
    ("MSTC", cmd (object "Mmdvm2020.TypeMasterClosing" L_Mmdvm2020_TypeMasterClosing));
    ("DMRD", cmd Mmdvm2020_dmrd);
    ("DMRA", cmd (object "Mmdvm2020.TypeTalkerAlias" L_Mmdvm2020_TypeTalkerAlias));
    ("DMRG", cmd (object "Mmdvm2020.TypeRadioPosition" L_Mmdvm2020_TypeRadioPosition))].

(** Dispatch on the first four characters. *)
Definition Mmdvm2020_spec (b : bytes) : res pyval :=
  if blen b <? 4 then Err EOFError
  else match decode_text ASCII (slice b 0 4) with
  | None => Err (UnicodeDecodeError (enc_name ASCII))
  | Some prefix =>
      let* d := match find_command (slice b 0 4) Mmdvm2020_commands with Some f => f b | None => Ok [] end in
      Ok (VObj "Mmdvm2020" ([("command_prefix", VStr prefix)] ++ d))
  end.
