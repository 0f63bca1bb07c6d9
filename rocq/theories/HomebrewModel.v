(** Model of okdmr/kaitai/homebrew: one definition per generated [_read] / property,
    statement by statement (paths are relative to /repo/okdmr/kaitai).
    [rt] is the installed kaitaistruct runtime. *)
From Verif Require Import PyBase Runtime Codec Enums Getters.
Open Scope string_scope.
Open Scope list_scope.
Open Scope Z_scope.

Section Homebrew.
Context (rt : runtime).

(** * homebrew/homebrew2015.py *)

(** homebrew/homebrew2015.py:81-90 [Homebrew2015.TypeMasterPing._read] *)
Definition p_Homebrew2015_TypeMasterPing : M pyval := obj "Homebrew2015.TypeMasterPing" [
    ("magic", expect_bytes rt (B [73;78;71]) "/types/type_master_ping/seq/0");
    ("repeater_id", vint (read_u4be rt))].

(** homebrew/homebrew2015.py:99-108 [Homebrew2015.TypeRepeaterPong._read] *)
Definition p_Homebrew2015_TypeRepeaterPong : M pyval := obj "Homebrew2015.TypeRepeaterPong" [
    ("magic", expect_bytes rt (B [79;78;71]) "/types/type_repeater_pong/seq/0");
    ("repeater_id", vint (read_u4be rt))].


(** homebrew/homebrew2015.py:133-135 [Homebrew2015.TypeRepeaterLoginResponse._read] *)
Definition p_Homebrew2015_TypeRepeaterLoginResponse : M pyval := obj "Homebrew2015.TypeRepeaterLoginResponse" [
    ("repeater_id", vint (read_u4be rt));
    ("sha256", vbytes rt 32)].

(** homebrew/homebrew2015.py:144-145 [Homebrew2015.TypeRepeaterLoginRequest._read] *)
Definition p_Homebrew2015_TypeRepeaterLoginRequest : M pyval := obj "Homebrew2015.TypeRepeaterLoginRequest" [
    ("repeater_id", vint (read_u4be rt))].

(** homebrew/homebrew2015.py:154-163 [Homebrew2015.TypeMasterNotAccept._read] *)
Definition p_Homebrew2015_TypeMasterNotAccept : M pyval := obj "Homebrew2015.TypeMasterNotAccept" [
    ("magic", expect_bytes rt (B [65;75]) "/types/type_master_not_accept/seq/0");
    ("repeater_id", vint (read_u4be rt))].

(** homebrew/homebrew2015.py:172-183 [Homebrew2015.TypeMasterRepeaterAck._read] *)
Definition p_Homebrew2015_TypeMasterRepeaterAck : M pyval :=
    magictype_master_repeater_ack <- expect_bytes rt (B [67;75]) "/types/type_master_repeater_ack/seq/0";;
    repeater_id <- read_u4be rt;;
    eof <- is_eof rt;;
    random_number <- (if negb eof then some (vint (read_u4be rt)) else none);;
    ret (VObj "Homebrew2015.TypeMasterRepeaterAck" ([("magictype_master_repeater_ack", magictype_master_repeater_ack); ("repeater_id", VInt repeater_id)] ++ opt "random_number" random_number)).

(** homebrew/homebrew2015.py:192-198 [Homebrew2015.TypeMasterClosing._read] *)
Definition p_Homebrew2015_TypeMasterClosing : M pyval := obj "Homebrew2015.TypeMasterClosing" [
    ("magic", expect_bytes rt (B [76]) "/types/type_master_closing/seq/0");
    ("repeater_id", vint (read_u4be rt))].

(** homebrew/homebrew2015.py:207-230 [Homebrew2015.TypeDmrData._read] *)
Definition p_Homebrew2015_TypeDmrData : M pyval :=
    sequence_no <- read_u1 rt;;
    source_id <- read_bits 24;;
    target_id <- read_bits 24;;
    align_to_byte;;;
    repeater_id <- read_u4be rt;;
    slot_no <- venum Homebrew2015_Timeslots (read_bits 1);;
    call_type <- venum Homebrew2015_CallTypes (read_bits 1);;
    frame_type <- venum Homebrew2015_FrameTypes (read_bits 2);;
    data_type <- read_bits 4;;
    align_to_byte;;;
    stream_id <- read_u4be rt;;
    dmr_data <- read_bytes rt 33;;
    eof1 <- is_eof rt;;
    bit_error_rate <- (if negb eof1 then some (vint (read_u1 rt)) else none);;
    eof2 <- is_eof rt;;
    rssi <- (if negb eof2 then some (vint (read_u1 rt)) else none);;
    ret (VObj "Homebrew2015.TypeDmrData" ([("sequence_no", VInt sequence_no); ("source_id", VInt source_id); ("target_id", VInt target_id); ("repeater_id", VInt repeater_id); ("slot_no", slot_no); ("call_type", call_type); ("frame_type", frame_type); ("data_type", VInt data_type); ("stream_id", VInt stream_id); ("dmr_data", VBytes dmr_data)] ++ opt "bit_error_rate" bit_error_rate ++ opt "rssi" rssi)).

(** homebrew/homebrew2015.py:239-241 [Homebrew2015.TypeRepeaterOptions._read] *)
Definition p_Homebrew2015_TypeRepeaterOptions : M pyval := obj "Homebrew2015.TypeRepeaterOptions" [
    ("repeater_id", vint (read_u4be rt));
    ("options", vstr_full rt ASCII)].

(** homebrew/homebrew2015.py:250-256 [Homebrew2015.TypeRepeaterClosing._read] *)
Definition p_Homebrew2015_TypeRepeaterClosing : M pyval := obj "Homebrew2015.TypeRepeaterClosing" [
    ("magic", expect_bytes rt (B [76]) "/types/type_repeater_closing/seq/0");
    ("repeater_id", vint (read_u4be rt))].

(** homebrew/homebrew2015.py:265-280 [Homebrew2015.TypeRepeaterConfiguration._read] *)
Definition p_Homebrew2015_TypeRepeaterConfiguration : M pyval := obj "Homebrew2015.TypeRepeaterConfiguration" [
    ("repeater_id", vint (read_u4be rt));
    ("call_sign", vstr rt ASCII 8);
    ("rx_freq", vstr rt ASCII 9);
    ("tx_freq", vstr rt ASCII 9);
    ("tx_power", vstr rt ASCII 2);
    ("color_code", vstr rt ASCII 2);
    ("latitude", vstr rt ASCII 8);
    ("longitude", vstr rt ASCII 9);
    ("antenna_height_above_ground", vstr rt ASCII 3);
    ("location", vstr rt ASCII 20);
    ("description", vstr rt ASCII 20);
    ("url", vstr rt ASCII 124);
    ("software_id", vstr rt ASCII 40);
    ("package_id", vstr rt ASCII 40);
    ("unparsed_data", vstr_full rt ASCII)].

(** homebrew/homebrew2015.py:117-124 [Homebrew2015.TypeRepeaterConfigurationOrClosing._read] *)
Definition p_Homebrew2015_TypeRepeaterConfigurationOrClosing (fifth_letter : pystr) : M pyval :=
    data <- (if str_eqb fifth_letter "L" then p_Homebrew2015_TypeRepeaterClosing else p_Homebrew2015_TypeRepeaterConfiguration);;
    ret (VObj "Homebrew2015.TypeRepeaterConfigurationOrClosing" [("data", data)]).

(** homebrew/homebrew2015.py:283-291 [Homebrew2015.fifth_letter], the computation behind the memo test.  During [_read] it
    is evaluated at most once, so the memo is always empty there; the memo attribute
    [_m_fifth_letter] it leaves on the root object is recorded in the root's attributes. *)
Definition Homebrew2015_fifth_letter : M pystr :=
    pos_ <- io_pos;;
    io_seek rt 4;;;
    x <- read_str rt ASCII 1;;
    io_seek rt pos_;;;
    ret x.

(** homebrew/homebrew2015.py:283-291 [Homebrew2015.fifth_letter] as an attribute of a parsed object *)
Definition Homebrew2015_fifth_letter_property : live -> res pyval * live :=
    memo "fifth_letter" (fun _ => x <- Homebrew2015_fifth_letter;; ret (VStr x)).

(** homebrew/homebrew2015.py:38-72 [Homebrew2015._read] *)
Definition p_Homebrew2015 : M pyval :=
    command_prefix <- read_str rt UTF8 4;;
    command_data <- (if str_eqb command_prefix "RPTL" then (v <- p_Homebrew2015_TypeRepeaterLoginRequest;; ret [("command_data", v)])
        else if str_eqb command_prefix "MSTA" then (v <- p_Homebrew2015_TypeMasterRepeaterAck;; ret [("command_data", v)])
        else if str_eqb command_prefix "RPTK" then (v <- p_Homebrew2015_TypeRepeaterLoginResponse;; ret [("command_data", v)])
        else if str_eqb command_prefix "RPTC" then (fifth <- Homebrew2015_fifth_letter;; v <- p_Homebrew2015_TypeRepeaterConfigurationOrClosing fifth;; ret [("_m_fifth_letter", VStr fifth); ("command_data", v)])
        else if str_eqb command_prefix "DMRD" then (v <- p_Homebrew2015_TypeDmrData;; ret [("command_data", v)])
        else if str_eqb command_prefix "MSTC" then (v <- p_Homebrew2015_TypeMasterClosing;; ret [("command_data", v)])
        else if str_eqb command_prefix "RPTP" then (v <- p_Homebrew2015_TypeRepeaterPong;; ret [("command_data", v)])
        else if str_eqb command_prefix "MSTP" then (v <- p_Homebrew2015_TypeMasterPing;; ret [("command_data", v)])
        else if str_eqb command_prefix "MSTN" then (v <- p_Homebrew2015_TypeMasterNotAccept;; ret [("command_data", v)])
        else ret []);;
    ret (VObj "Homebrew2015" ([("command_prefix", VStr command_prefix)] ++ command_data)).


(** * homebrew/mmdvm2020.py *)

(** homebrew/mmdvm2020.py:103-112 [Mmdvm2020.TypeMasterPong._read] *)
Definition p_Mmdvm2020_TypeMasterPong : M pyval := obj "Mmdvm2020.TypeMasterPong" [
    ("magic", expect_bytes rt (B [79;78;71]) "/types/type_master_pong/seq/0");
    ("repeater_id", vint (read_u4be rt))].

(** homebrew/mmdvm2020.py:123-130 [Mmdvm2020.TypeRadioPosition._read] *)
Definition p_Mmdvm2020_TypeRadioPosition : M pyval := obj "Mmdvm2020.TypeRadioPosition" [
    ("radio_id", vbits 24);
    ("reserved", vbits 4);
    ("position_error", venum Mmdvm2020_PositionErrors (read_bits 3));
    ("longitude", vbits 25);
    ("latitude", vbits 24)].

(** homebrew/mmdvm2020.py:139-145 [Mmdvm2020.TypeTalkerAlias._read] *)
Definition p_Mmdvm2020_TypeTalkerAlias : M pyval := obj "Mmdvm2020.TypeTalkerAlias" [
    ("radio_id", vbits 24);
    ("talker_alias_type", aligned (venum Mmdvm2020_TalkerAliasTypes (read_u1 rt)));
    ("talker_alias", vstr rt ASCII 8)].


(** homebrew/mmdvm2020.py:170-172 [Mmdvm2020.TypeRepeaterLoginResponse._read] *)
Definition p_Mmdvm2020_TypeRepeaterLoginResponse : M pyval := obj "Mmdvm2020.TypeRepeaterLoginResponse" [
    ("repeater_id", vint (read_u4be rt));
    ("sha256", vbytes rt 32)].

(** homebrew/mmdvm2020.py:181-182 [Mmdvm2020.TypeRepeaterLoginRequest._read] *)
Definition p_Mmdvm2020_TypeRepeaterLoginRequest : M pyval := obj "Mmdvm2020.TypeRepeaterLoginRequest" [
    ("repeater_id", vint (read_u4be rt))].

(** homebrew/mmdvm2020.py:191-200 [Mmdvm2020.TypeMasterNotAccept._read] *)
Definition p_Mmdvm2020_TypeMasterNotAccept : M pyval := obj "Mmdvm2020.TypeMasterNotAccept" [
    ("magic", expect_bytes rt (B [65;75]) "/types/type_master_not_accept/seq/0");
    ("repeater_id", vint (read_u4be rt))].

(** homebrew/mmdvm2020.py:209-210 [Mmdvm2020.TypeUnknown._read] *)
Definition p_Mmdvm2020_TypeUnknown : M pyval := obj "Mmdvm2020.TypeUnknown" [
    ("unknown_data", vfull rt)].

(** homebrew/mmdvm2020.py:219-228 [Mmdvm2020.TypeMasterRepeaterAck._read] *)
Definition p_Mmdvm2020_TypeMasterRepeaterAck : M pyval := obj "Mmdvm2020.TypeMasterRepeaterAck" [
    ("magic", expect_bytes rt (B [67;75]) "/types/type_master_repeater_ack/seq/0");
    ("repeater_id_or_challenge", vint (read_u4be rt))].

(** homebrew/mmdvm2020.py:237-243 [Mmdvm2020.TypeMasterClosing._read] *)
Definition p_Mmdvm2020_TypeMasterClosing : M pyval := obj "Mmdvm2020.TypeMasterClosing" [
    ("magic", expect_bytes rt (B [76]) "/types/type_master_closing/seq/0");
    ("repeater_id", vint (read_u4be rt))].

(** homebrew/mmdvm2020.py:252-275 [Mmdvm2020.TypeDmrData._read] *)
Definition p_Mmdvm2020_TypeDmrData : M pyval :=
    sequence_no <- read_u1 rt;;
    source_id <- read_bits 24;;
    target_id <- read_bits 24;;
    align_to_byte;;;
    repeater_id <- read_u4be rt;;
    slot_no <- venum Mmdvm2020_Timeslots (read_bits 1);;
    call_type <- venum Mmdvm2020_CallTypes (read_bits 1);;
    frame_type <- venum Mmdvm2020_FrameTypes (read_bits 2);;
    data_type <- read_bits 4;;
    align_to_byte;;;
    stream_id <- read_u4be rt;;
    dmr_data <- read_bytes rt 33;;
    eof1 <- is_eof rt;;
    bit_error_rate <- (if negb eof1 then some (vint (read_u1 rt)) else none);;
    eof2 <- is_eof rt;;
    rssi <- (if negb eof2 then some (vint (read_u1 rt)) else none);;
    ret (VObj "Mmdvm2020.TypeDmrData" ([("sequence_no", VInt sequence_no); ("source_id", VInt source_id); ("target_id", VInt target_id); ("repeater_id", VInt repeater_id); ("slot_no", slot_no); ("call_type", call_type); ("frame_type", frame_type); ("data_type", VInt data_type); ("stream_id", VInt stream_id); ("dmr_data", VBytes dmr_data)] ++ opt "bit_error_rate" bit_error_rate ++ opt "rssi" rssi)).

(** homebrew/mmdvm2020.py:286-287 [Mmdvm2020.TypeRepeaterBeacon._read] *)
Definition p_Mmdvm2020_TypeRepeaterBeacon : M pyval := obj "Mmdvm2020.TypeRepeaterBeacon" [].

(** homebrew/mmdvm2020.py:296-298 [Mmdvm2020.TypeRepeaterOptions._read] *)
Definition p_Mmdvm2020_TypeRepeaterOptions : M pyval := obj "Mmdvm2020.TypeRepeaterOptions" [
    ("repeater_id", vint (read_u4be rt));
    ("options", vstr_full rt ASCII)].

(** homebrew/mmdvm2020.py:307-313 [Mmdvm2020.TypeRepeaterClosing._read] *)
Definition p_Mmdvm2020_TypeRepeaterClosing : M pyval := obj "Mmdvm2020.TypeRepeaterClosing" [
    ("magic", expect_bytes rt (B [76]) "/types/type_repeater_closing/seq/0");
    ("repeater_id", vint (read_u4be rt))].

(** homebrew/mmdvm2020.py:322-338 [Mmdvm2020.TypeRepeaterConfiguration._read] *)
Definition p_Mmdvm2020_TypeRepeaterConfiguration : M pyval := obj "Mmdvm2020.TypeRepeaterConfiguration" [
    ("repeater_id", vint (read_u4be rt));
    ("call_sign", vstr rt ASCII 8);
    ("rx_freq", vstr rt ASCII 9);
    ("tx_freq", vstr rt ASCII 9);
    ("tx_power", vstr rt ASCII 2);
    ("color_code", vstr rt ASCII 2);
    ("latitude", vstr rt ASCII 8);
    ("longitude", vstr rt ASCII 9);
    ("antenna_height_above_ground", vstr rt ASCII 3);
    ("location", vstr rt ASCII 20);
    ("description", vstr rt ASCII 19);
    ("slots", vstr rt ASCII 1);
    ("url", vstr rt ASCII 124);
    ("software_id", vstr rt ASCII 40);
    ("package_id", vstr rt ASCII 40);
    ("unparsed_data", vstr_full rt ASCII)].

(** homebrew/mmdvm2020.py:347-356 [Mmdvm2020.TypeRepeaterPing._read] *)
Definition p_Mmdvm2020_TypeRepeaterPing : M pyval := obj "Mmdvm2020.TypeRepeaterPing" [
    ("magic", expect_bytes rt (B [73;78;71]) "/types/type_repeater_ping/seq/0");
    ("repeater_id", vint (read_u4be rt))].

(** homebrew/mmdvm2020.py:154-161 [Mmdvm2020.TypeRepeaterConfigurationOrClosing._read] *)
Definition p_Mmdvm2020_TypeRepeaterConfigurationOrClosing (fifth_letter : pystr) : M pyval :=
    data <- (if str_eqb fifth_letter "L" then p_Mmdvm2020_TypeRepeaterClosing else p_Mmdvm2020_TypeRepeaterConfiguration);;
    ret (VObj "Mmdvm2020.TypeRepeaterConfigurationOrClosing" [("data", data)]).

(** homebrew/mmdvm2020.py:359-367 [Mmdvm2020.fifth_letter], the computation behind the memo test.  During [_read] it
    is evaluated at most once, so the memo is always empty there; the memo attribute
    [_m_fifth_letter] it leaves on the root object is recorded in the root's attributes. *)
Definition Mmdvm2020_fifth_letter : M pystr :=
    pos_ <- io_pos;;
    io_seek rt 4;;;
    x <- read_str rt ASCII 1;;
    io_seek rt pos_;;;
    ret x.

(** homebrew/mmdvm2020.py:359-367 [Mmdvm2020.fifth_letter] as an attribute of a parsed object *)
Definition Mmdvm2020_fifth_letter_property : live -> res pyval * live :=
    memo "fifth_letter" (fun _ => x <- Mmdvm2020_fifth_letter;; ret (VStr x)).

(** homebrew/mmdvm2020.py:54-94 [Mmdvm2020._read] *)
Definition p_Mmdvm2020 : M pyval :=
    command_prefix <- read_str rt ASCII 4;;
    command_data <- (if str_eqb command_prefix "RPTL" then (v <- p_Mmdvm2020_TypeRepeaterLoginRequest;; ret [("command_data", v)])
        else if str_eqb command_prefix "DMRG" then (v <- p_Mmdvm2020_TypeRadioPosition;; ret [("command_data", v)])
        else if str_eqb command_prefix "RPTA" then (v <- p_Mmdvm2020_TypeMasterRepeaterAck;; ret [("command_data", v)])
        else if str_eqb command_prefix "RPTK" then (v <- p_Mmdvm2020_TypeRepeaterLoginResponse;; ret [("command_data", v)])
        else if str_eqb command_prefix "RPTC" then (fifth <- Mmdvm2020_fifth_letter;; v <- p_Mmdvm2020_TypeRepeaterConfigurationOrClosing fifth;; ret [("_m_fifth_letter", VStr fifth); ("command_data", v)])
        else if str_eqb command_prefix "DMRD" then (v <- p_Mmdvm2020_TypeDmrData;; ret [("command_data", v)])
        else if str_eqb command_prefix "MSTC" then (v <- p_Mmdvm2020_TypeMasterClosing;; ret [("command_data", v)])
        else if str_eqb command_prefix "RPTP" then (v <- p_Mmdvm2020_TypeRepeaterPing;; ret [("command_data", v)])
        else if str_eqb command_prefix "RPTO" then (v <- p_Mmdvm2020_TypeRepeaterOptions;; ret [("command_data", v)])
        else if str_eqb command_prefix "MSTP" then (v <- p_Mmdvm2020_TypeMasterPong;; ret [("command_data", v)])
        else if str_eqb command_prefix "RPTS" then (v <- p_Mmdvm2020_TypeRepeaterBeacon;; ret [("command_data", v)])
        else if str_eqb command_prefix "MSTN" then (v <- p_Mmdvm2020_TypeMasterNotAccept;; ret [("command_data", v)])
        else if str_eqb command_prefix "DMRA" then (v <- p_Mmdvm2020_TypeTalkerAlias;; ret [("command_data", v)])
        else ret []);;
    ret (VObj "Mmdvm2020" ([("command_prefix", VStr command_prefix)] ++ command_data)).



End Homebrew.
