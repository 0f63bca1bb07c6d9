{"id": "C01", "title": "Consecutive bit fields are consecutive slices of the packet", "statement": "Reading any sequence of bit fields of any widths from a packet, as every ETSI/homebrew/HSTRP/RTP parser does, returns exactly the consecutive most-significant-bit-first slices of the packet, in order, with no bit skipped, repeated or taken from a neighbouring field; the sequence succeeds exactly when the packet has enough bits left and raises EOFError otherwise.", "quantifier": "every packet, every starting bit offset, every list of field widths", "why_tests_cant": "The leftover-bit register of the stream takes a different state for every combination of previous widths; tests exercise a handful of width sequences.", "anchors": ["okdmr/kaitai/etsi/dmr_csbk.py:DmrCsbk._read", "okdmr/kaitai/etsi/dmr_data_header.py", "okdmr/kaitai/etsi/full_link_control.py", "kaitaistruct runtime KaitaiStream.read_bits_int_be"]}
{"id": "C02", "title": "Parsing does not depend on which supported kaitaistruct runtime is installed", "statement": "For every input, from_bytes of every protocol class gives the same object or the same exception under the 0.10 stream runtime (no implicit alignment) and under the auto-aligning 0.11 runtime, both admitted by the requirement kaitaistruct>=0.10.", "quantifier": "every byte string, every modelled protocol class", "why_tests_cant": "Tests run against one installed runtime; divergence depends on leftover bits, i.e. on the particular field values that select optional bit fields.", "anchors": ["pyproject.toml:dependencies", "okdmr/kaitai/motorola/text_message_protocol.py:TextMessageHeaderSequenceAndEncoding"]}
{"id": "C03", "title": "Every parser terminates", "statement": "from_bytes of every protocol class finishes on every input: no input makes one of the repeat loops (HSTRP options and data, MBXML documents, uintvar/sintvar, RCP and RTP counted lists) run forever.", "quantifier": "every byte string, every protocol class", "why_tests_cant": "Non-termination on crafted input cannot be excluded by any finite set of packets.", "anchors": ["okdmr/kaitai/hytera/hytera_simple_transport_reliability_protocol.py:_read", "okdmr/kaitai/motorola/motorola_binary_xml.py", "okdmr/kaitai/hytera/radio_control_protocol.py"]}
{"id": "C04", "title": "Malformed packets raise only the documented exceptions", "statement": "from_bytes on an arbitrary byte string either returns an object or raises one of EOFError, ValidationNotEqualError, UnicodeDecodeError, ValueError (negative length); it never raises AttributeError, IndexError, KeyError or TypeError.", "quantifier": "every byte string, every protocol class", "why_tests_cant": "A receiver must survive arbitrary network input; tests only contain valid captures.", "anchors": ["okdmr/kaitai/hytera", "okdmr/kaitai/motorola", "okdmr/kaitai/etsi", "okdmr/kaitai/homebrew"]}
{"id": "C05", "title": "Enumerated fields never lose the wire value", "statement": "An enumerated field holds the enum member whose value is the number on the wire when that number is declared, and otherwise the plain number itself; so the wire number is always recoverable and no two numbers are represented by the same field value. No enum declares two names for one number.", "quantifier": "every enum of the code base, every number", "why_tests_cant": "The number ranges (8, 16 bits) times the number of enums is never exhausted by tests, and unknown values are not in captures.", "anchors": ["kaitaistruct resolve_enum", "okdmr/kaitai/hytera/radio_control_protocol.py:ServiceTypes", "okdmr/kaitai/etsi/dmr_data_header.py"]}
{"id": "C06", "title": "Self-delimiting protocols ignore trailing bytes", "statement": "If a self-delimiting message (CSBK, data header, RRS, DDS, DTP, LP, RCP, Hytera TMP, HDAP, HRNP, radio ip/id, GPS data) parses from a buffer, it parses to the identical object from that buffer followed by any further bytes.", "quantifier": "every packet, every trailing byte string", "why_tests_cant": "Receive buffers contain arbitrary following data; the trailing data is unbounded.", "anchors": ["okdmr/kaitai/hytera/hytera_dmr_application_protocol.py", "okdmr/kaitai/hytera/radio_registration_service.py", "okdmr/kaitai/etsi/dmr_csbk.py"]}
{"id": "C07", "title": "Fixed-layout parsing loses no information", "statement": "For each fixed-layout message the decoded attributes determine the packet: two packets of the message's length that decode to equal objects are the same bytes; every bit of the message belongs to exactly one attribute.", "quantifier": "every pair of packets of the layout's length", "why_tests_cant": "Injectivity quantifies over all pairs of packets.", "anchors": ["okdmr/kaitai/etsi/dmr_csbk.py", "okdmr/kaitai/etsi/dmr_data_header.py", "okdmr/kaitai/homebrew/homebrew2015.py:TypeDmrData", "okdmr/kaitai/hytera/ip_site_connect_protocol.py"]}
{"id": "C08", "title": "CSBK decoding", "statement": "For every input, DmrCsbk.from_bytes gives last_block, protect_flag, 6-bit opcode and 8-bit feature set id from the first two octets, and the opcode alone selects the csbk_data class whose fields sit at the TS 102 361-2 offsets (24-bit addresses etc.); an opcode that is not one of the six known ones yields an object without csbk_data; a packet too short for its selected content raises EOFError.", "quantifier": "every byte string", "why_tests_cant": "2^80 packets; field boundary mistakes show only on particular values.", "anchors": ["okdmr/kaitai/etsi/dmr_csbk.py:DmrCsbk"]}
{"id": "C09", "title": "DMR data header decoding", "statement": "DmrDataHeader.from_bytes(b).data decodes the first 12 octets with the layout selected by the low nibble of octet 0 (UDT, response, unconfirmed, confirmed, defined short, status/precoded, proprietary; otherwise the raw 12 octets), each field at its TS 102 361-1 offset; appended_blocks is the 6-bit number formed by msb and lsb parts (0..63).", "quantifier": "every byte string", "why_tests_cant": "2^96 headers and eight layouts.", "anchors": ["okdmr/kaitai/etsi/dmr_data_header.py:DmrDataHeader.data", "okdmr/kaitai/etsi/dmr_data_header.py:appended_blocks"]}
{"id": "C10", "title": "The lazily parsed data-header body is stable", "statement": "Accessing .data any number of times, interleaved with any seeks, always gives the same result, the body decoded from the first 12 octets; on packets of at least 12 octets every access leaves the stream position as it was; on shorter packets every access raises EOFError. (Not true of the code, and refuted by a witness: that an access that raises EOFError also leaves the position alone.)", "quantifier": "every input, every stream position at access time, every number of accesses", "why_tests_cant": "Depends on the history of accesses and on the position the caller left the stream in.", "anchors": ["okdmr/kaitai/etsi/dmr_data_header.py:DmrDataHeader.data"]}
{"id": "C11", "title": "Full link control decoding", "statement": "For every input, FullLinkControl gives protect flag, reserved bit, 6-bit FLCO, feature set id, and a specific_data chosen by FLCO alone (group voice, unit-to-unit voice, GPS info, talker alias header, talker alias blocks 1..3) with 24-bit addresses / 25+24-bit position / 49- or 56-bit alias at the ETSI offsets; unknown FLCO has no specific_data.", "quantifier": "every byte string", "why_tests_cant": "2^72 link control words.", "anchors": ["okdmr/kaitai/etsi/full_link_control.py:FullLinkControl"]}
{"id": "C12", "title": "Exactly the right checksum is decoded for full link control", "statement": "With a known FLCO: a 12-octet (or longer) LC gets the 3-octet crc_checksum and no cs5_checksum, a 10-octet embedded LC gets the 5-bit cs5_checksum and no crc_checksum, 11 octets get neither; 9 octets or fewer raise EOFError. With an unknown FLCO no content octets are skipped: crc_checksum is octets 2..4 when there are at least 5 octets, cs5_checksum the 5 bits that follow when there are at most 10 octets, and, from 2 octets on, EOFError is raised only for lengths 2 and 5.", "quantifier": "every byte string, partitioned by length", "why_tests_cant": "Presence of attributes is a function of length and position jointly.", "anchors": ["okdmr/kaitai/etsi/full_link_control.py:FullLinkControl._read"]}
{"id": "C13", "title": "DMR data blocks partition the octets", "statement": "Each of the thirteen rate 1, 3/4, 1/2 and UDT block classes splits its block into serial number (7 bits), CRC-9 (9 bits), user data and message CRC without gap or overlap, so that the concatenation of the attributes is the block, and raises EOFError exactly when the block is shorter than the class's fixed size.", "quantifier": "every byte string, every block class", "why_tests_cant": "All block contents and lengths.", "anchors": ["okdmr/kaitai/etsi/dmr_data.py"]}
{"id": "C14", "title": "Compressed UDP/IPv4 header decoding", "statement": "UdpIpv4CompressedHeader has udp_source_port iff the source port id is 0 and udp_destination_port iff the destination port id is 0, in this order, and user_data is exactly the remaining octets, so identification, id octets, extended ports and user data concatenate to the input.", "quantifier": "every byte string", "why_tests_cant": "Four presence combinations times unbounded payload.", "anchors": ["okdmr/kaitai/etsi/dmr_ip_udp.py:UdpIpv4CompressedHeader"]}
{"id": "C15", "title": "Homebrew 2015 command decoding", "statement": "Homebrew2015.from_bytes dispatches on the first four characters only: each of the nine commands decodes its documented body (magic suffix checked, repeater id big-endian), any other UTF-8 prefix yields an object without command_data, an undecodable prefix raises UnicodeDecodeError, a wrong magic raises ValidationNotEqualError and a short packet EOFError.", "quantifier": "every byte string", "why_tests_cant": "All prefixes and bodies.", "anchors": ["okdmr/kaitai/homebrew/homebrew2015.py:Homebrew2015"]}
{"id": "C16", "title": "DMRD voice/data frames", "statement": "For both homebrew and MMDVM, a DMRD packet of at least 53 bytes decodes sequence, 24-bit source and target, repeater id, slot/call/frame type bits, data type nibble, stream id and the 33 payload bytes at fixed offsets; bit_error_rate is present iff there is a 54th byte and rssi iff there is a 55th; shorter packets raise EOFError.", "quantifier": "every byte string starting with DMRD", "why_tests_cant": "Presence by length, and 2^400 frames.", "anchors": ["okdmr/kaitai/homebrew/homebrew2015.py:TypeDmrData", "okdmr/kaitai/homebrew/mmdvm2020.py:TypeDmrData"]}
{"id": "C17", "title": "Repeater closing versus configuration", "statement": "An RPTC packet is decoded as closing when its fifth byte is 'L', rejected with UnicodeDecodeError when that byte is not ASCII, and decoded as configuration otherwise; the lookahead gives the same character at any moment and does not move the stream. (Expected by a user and refuted for the code: that a 302-byte configuration packet is decoded as configuration whatever its repeater id; every id from 0x4c000000 to 0x4cffffff is taken for a closing message and every id from 0x80000000 on raises UnicodeDecodeError.)", "quantifier": "every RPTC packet", "why_tests_cant": "Depends on the numeric value of the repeater id.", "anchors": ["okdmr/kaitai/homebrew/homebrew2015.py:TypeRepeaterConfigurationOrClosing", "okdmr/kaitai/homebrew/homebrew2015.py:fifth_letter", "okdmr/kaitai/homebrew/mmdvm2020.py:fifth_letter"]}
{"id": "C18", "title": "Repeater configuration text is recovered verbatim", "statement": "When a configuration packet decodes, re-encoding the repeater id and all text fields in order gives back exactly the bytes of the packet, and every field has its documented width; any non-ASCII byte in the packet body raises UnicodeDecodeError.", "quantifier": "every byte string", "why_tests_cant": "All field contents.", "anchors": ["okdmr/kaitai/homebrew/homebrew2015.py:TypeRepeaterConfiguration", "okdmr/kaitai/homebrew/mmdvm2020.py:TypeRepeaterConfiguration"]}
{"id": "C19", "title": "MMDVM 2020 command decoding", "statement": "Mmdvm2020.from_bytes dispatches on the first four ASCII characters only to one of thirteen bodies with their documented layouts; unknown prefixes give no command_data, non-ASCII prefixes raise UnicodeDecodeError, wrong magics ValidationNotEqualError, short packets EOFError.", "quantifier": "every byte string", "why_tests_cant": "All prefixes and bodies.", "anchors": ["okdmr/kaitai/homebrew/mmdvm2020.py:Mmdvm2020"]}
{"id": "C20", "title": "Radio IP address", "statement": "radio_ip is the dotted decimal of the four bytes, radio_id is the 24-bit big-endian number of the last three, subnet the first; the dotted string is injective (equal strings only for equal bytes), radio_id is below 2^24 and (subnet, radio_id) determines the address.", "quantifier": "every four-byte value", "why_tests_cant": "2^32 addresses; injectivity over pairs.", "anchors": ["okdmr/kaitai/hytera/radio_ip.py:RadioIp"]}
{"id": "C21", "title": "Radio id (RTP) is the upper three little-endian bytes", "statement": "RadioId.radio_id equals byte1 + 256*byte2 + 65536*byte3 of the four bytes, ignoring byte 0, and is below 2^24.", "quantifier": "every byte string", "why_tests_cant": "2^32 values.", "anchors": ["okdmr/kaitai/hytera/radio_id.py:RadioId"]}
{"id": "C22", "title": "GPS data fields", "statement": "Gpsdata splits 40 bytes into the nine documented fields whose concatenation is the input; gps_available is true iff the status byte is 'A', false for any other ASCII status, and raises UnicodeDecodeError for a status byte >= 0x80.", "quantifier": "every byte string", "why_tests_cant": "All 40-byte payloads.", "anchors": ["okdmr/kaitai/hytera/gpsdata.py:Gpsdata"]}
{"id": "C23", "title": "Radio registration service", "statement": "RadioRegistrationService accepts exactly packets whose first byte is 0 and which are long enough for their type; result is present iff type is registration_ack or online_check_ack and valid_time iff registration_ack; radio ip and numbers are at the fixed offsets.", "quantifier": "every byte string", "why_tests_cant": "Presence of optional fields by type and length.", "anchors": ["okdmr/kaitai/hytera/radio_registration_service.py"]}
{"id": "C24", "title": "Data delivery states", "statement": "DataDeliveryStates decodes any packet of at least 11 bytes at fixed offsets, whatever the enum values, and raises EOFError on any shorter one.", "quantifier": "every byte string", "why_tests_cant": "All packets.", "anchors": ["okdmr/kaitai/hytera/data_delivery_states.py"]}
{"id": "C25", "title": "Data transmit protocol", "statement": "The second byte selects the DTP body; file_name / file_data is exactly the message_length-10 bytes following the two addresses and the number; message_length below 10 in a request or slice raises ValueError after the fixed part, too short packets EOFError; unknown subtypes have no data.", "quantifier": "every byte string", "why_tests_cant": "Interaction of the declared length and the actual length.", "anchors": ["okdmr/kaitai/hytera/data_transmit_protocol.py"]}
{"id": "C26", "title": "Hytera text message protocol", "statement": "Text and option lengths are taken from the header: tmdata is the UTF-16LE text of the message_length-12 (minus option length+2) bytes after the addresses; the option field is present iff the option flag is set; source_ip is absent exactly for group acks; result is present exactly for acks; a declared length too small raises ValueError, too large EOFError, bad text UnicodeDecodeError.", "quantifier": "every byte string", "why_tests_cant": "Combination of flags, service types and declared lengths.", "anchors": ["okdmr/kaitai/hytera/text_message_protocol.py"]}
{"id": "C27", "title": "Location protocol", "statement": "The 16-bit opcode alone selects the body of a location message; each of the 17 bodies decodes its documented layout (request id, radio ip, result, 40-byte GPS block, signed RSSI in -32768..32767, date/interval strings); quick_gps_payload is present iff cmd_type is start_request; other opcodes (including standard_answer_gps_bt) have no data.", "quantifier": "every byte string", "why_tests_cant": "65536 opcodes, all bodies.", "anchors": ["okdmr/kaitai/hytera/location_protocol.py"]}
{"id": "C28", "title": "Location protocol general opcode", "statement": "LocationProtocol.opcode is, whatever the order and number of accesses and seeks, the service class named by the first byte of the underlying stream; for a message decoded stand-alone this is the message's own first byte. (Expected and refuted: the same for a message carried inside HDAP; there opcode is, for every packet, the HDAP header byte 0x08 or 0x88, which is no location service.)", "quantifier": "every message, every embedding offset, every access history", "why_tests_cant": "Tests only read opcode of a stand-alone message.", "anchors": ["okdmr/kaitai/hytera/location_protocol.py:LocationProtocol.opcode", "okdmr/kaitai/hytera/hytera_dmr_application_protocol.py"]}
{"id": "C29", "title": "Telemetry protocol", "statement": "A stand-alone telemetry message decodes the body selected by its first two bytes, or no body if they select none. (Expected and refuted: that it decodes the same way inside HDAP. There the selector is the 16 bits at the start of the HDAP packet, no body is ever decoded, the two bytes after the 4-byte telemetry header are taken for checksum and footer, and the packet parses exactly when the latter is 0x03.)", "quantifier": "every telemetry message, stand-alone and embedded", "why_tests_cant": "There is no telemetry capture in the tests at all.", "anchors": ["okdmr/kaitai/hytera/telemetry_protocol.py:specific_service", "okdmr/kaitai/hytera/hytera_dmr_application_protocol.py"]}
{"id": "C30", "title": "Radio control protocol", "statement": "Little-endian service type and length; call request/reply, remove radio, broadcast configuration and identification replies decode their bodies; every other service (known or unknown) yields exactly message_length raw bytes; a broadcast configuration request yields exactly the announced number of operation/target pairs; identification reply parts appear by the thresholds 6/198/206.", "quantifier": "every byte string", "why_tests_cant": "65536 service types, all counts and lengths.", "anchors": ["okdmr/kaitai/hytera/radio_control_protocol.py"]}
{"id": "C31", "title": "Embedded equals stand-alone", "statement": "Every application protocol other than telemetry carried at an offset inside HDAP decodes to the same object (or raises the same error) as when its bytes are decoded stand-alone, and so does an HDAP message carrying one of them inside HRNP and HSTRP. (Refuted for telemetry.)", "quantifier": "every packet, every embedding offset, every sub-protocol", "why_tests_cant": "Requires relating two parses at arbitrary offsets.", "anchors": ["okdmr/kaitai/hytera/hytera_dmr_application_protocol.py", "okdmr/kaitai/hytera/hytera_radio_network_protocol.py"]}
{"id": "C32", "title": "HDAP framing", "statement": "HyteraDmrApplicationProtocol decodes reliability bit, 7-bit header, the sub-protocol selected by the header, then one checksum byte and a footer that must be 0x03: a parse succeeds only if the byte right after the checksum is 0x03, otherwise ValidationNotEqualError or EOFError; unknown headers have no data and the checksum follows immediately.", "quantifier": "every byte string", "why_tests_cant": "All headers and sub-protocol bodies.", "anchors": ["okdmr/kaitai/hytera/hytera_dmr_application_protocol.py"]}
{"id": "C33", "title": "HRNP framing", "statement": "HyteraRadioNetworkProtocol requires 0x7e, decodes the 12-byte header at fixed offsets, and has data (one HDAP message at offset 12) iff opcode is data (0x00); hrnp_packet_length and checksum are reported but never enforced.", "quantifier": "every byte string", "why_tests_cant": "All opcodes and lengths.", "anchors": ["okdmr/kaitai/hytera/hytera_radio_network_protocol.py"]}
{"id": "C34", "title": "HSTRP framing", "statement": "After '2B', version, flags and sequence number: options are decoded iff bytes remain, has_option is set and heartbeat is not, as the maximal chain linked by expect_more_options; data is present iff bytes remain after the options and none of reject/close/connect is set, and then the whole rest of the packet is a sequence of HDAP messages; extra_data is present iff bytes remain and one of reject/close/connect is set, and is exactly the rest.", "quantifier": "every byte string", "why_tests_cant": "Unbounded chains of options and messages; 64 flag combinations.", "anchors": ["okdmr/kaitai/hytera/hytera_simple_transport_reliability_protocol.py"]}
{"id": "C35", "title": "IPSC frame decoding", "statement": "IpSiteConnectProtocol accepts exactly packets of at least 72 bytes with 5a5a at offset 2; all fields are at fixed offsets (little-endian radio ids and colour code), ipsc_payload is bytes 26..59, extra_data is present iff the packet is longer than 72 bytes and is the rest.", "quantifier": "every byte string", "why_tests_cant": "All packets and lengths.", "anchors": ["okdmr/kaitai/hytera/ip_site_connect_protocol.py"]}
{"id": "C36", "title": "IPSC derived values are history independent", "statement": "source/destination_radio_id are the upper 24 bits of the raw ids, color_code is the low nibble (0..15), is_wakeup is true exactly for call types 2, 0x0C or slot type 0xDDDD; whatever the order and repetition of accesses, each returns the same value.", "quantifier": "every packet, every sequence of property accesses", "why_tests_cant": "Depends on access history (memoisation).", "anchors": ["okdmr/kaitai/hytera/ip_site_connect_protocol.py:is_wakeup", "okdmr/kaitai/hytera/ip_site_connect_protocol.py:color_code"]}
{"id": "C37", "title": "IPSC heartbeat classification", "statement": "IpSiteConnectHeartbeat classifies by packet size only: 1 byte must be 0x00 (keepalive), 20 bytes must be the ping/pong template with a free sequence byte at offset 12, any other size (including 0) is Unknown carrying all bytes; deviations raise ValidationNotEqualError.", "quantifier": "every byte string", "why_tests_cant": "All lengths and contents.", "anchors": ["okdmr/kaitai/hytera/ip_site_connect_heartbeat.py"]}
{"id": "C38", "title": "RTP packet partition", "statement": "RealTimeTransportProtocol accepts only version 2; exactly num_csrc contributing sources are read, the header extension iff the extension bit; audio_data followed by padding is exactly the rest of the packet, padding has the length given by the last byte iff the padding bit is set; if that length exceeds the rest, ValueError.", "quantifier": "every byte string", "why_tests_cant": "Lengths are data dependent and read from the end of the packet.", "anchors": ["okdmr/kaitai/hytera/real_time_transport_protocol.py"]}
{"id": "C39", "title": "Motorola ARS", "statement": "The low nibble of the header selects the registration content; identifiers and password are present iff their length byte is non-zero and have exactly that length; ack header / failure reason are present by extension and acknowledgement bits; unparsed_data is exactly the rest, so nothing of the packet is dropped.", "quantifier": "every byte string", "why_tests_cant": "Three chained variable-length fields and flag combinations.", "anchors": ["okdmr/kaitai/motorola/automatic_registration_service.py"]}
{"id": "C40", "title": "Motorola TMP content selection", "statement": "custom_pdu_type is the injective 6-bit combination of ack, control and pdu type, below 64; the four known values select the content; text of a text message is the UTF-16LE decoding of everything after the headers, and unparsed_data is then empty.", "quantifier": "every byte string", "why_tests_cant": "All header bytes, address lengths and texts.", "anchors": ["okdmr/kaitai/motorola/text_message_protocol.py"]}
{"id": "C41", "title": "Motorola TMP sequence numbers", "statement": "sequence_number of a text header and of an acknowledgement header is (msb << 4) + lsb of the decoded 2 msb bits and 5 lsb bits, whatever the history of accesses; when the header has no second byte it raises AttributeError. Two headers have the same sequence number exactly when both parts agree or the msb parts differ by one and the lsb parts by 16 the other way. (Expected and refuted: that distinct (msb, lsb) give distinct numbers and that the number is always available.)", "quantifier": "every header", "why_tests_cant": "Collision needs two particular headers.", "anchors": ["okdmr/kaitai/motorola/text_message_protocol.py:sequence_number"]}
{"id": "C42", "title": "MBXML document list", "statement": "MotorolaBinaryXml reads exactly one document, from the start of the payload, and succeeds exactly when that document decodes and at least one further byte follows it; otherwise it raises the document's error or EOFError. (Expected from the documentation and refuted: that documents contains all documents concatenated in the payload; a payload of exactly one document always raises EOFError, and of several documents only the first is there.)", "quantifier": "every payload", "why_tests_cant": "The only test payload happens to have trailing bytes.", "anchors": ["okdmr/kaitai/motorola/motorola_binary_xml.py:MotorolaBinaryXml._read"]}
{"id": "C43", "title": "uintvar decoding", "statement": "Uintvar reads up to and including the first byte without continue flag (or to the end of a non-empty input), and uintvar_to_int of the payload is the base-128 number, below 128^length; encoding any natural number and decoding it, whatever follows, gives the number back. (Not enforced: the documented bound of 32 bits.)", "quantifier": "every natural number, every byte string", "why_tests_cant": "Unbounded integers.", "anchors": ["okdmr/kaitai/motorola/motorola_binary_xml.py:Uintvar", "okdmr/kaitai/motorola/motorola_utils.py:uintvar_to_int"]}
{"id": "C44", "title": "sintvar decoding", "statement": "sintvar_to_int of a payload whose first byte has the sign bit 0x40 is minus the base-128 number without that bit, so every number <= 0 encoded as sign and magnitude decodes to itself, at every width. (Expected and refuted: the same for positive numbers; every positive number m decodes to m without its highest set bit.)", "quantifier": "every integer and every payload", "why_tests_cant": "Only negative examples are tested.", "anchors": ["okdmr/kaitai/motorola/motorola_utils.py:sintvar_to_int", "okdmr/kaitai/motorola/motorola_utils.py:clear_msb"]}
{"id": "C45", "title": "ufloatvar / sfloatvar decoding", "statement": "ufloatvar_to_float is integer part plus fraction/128^len, exactly (no rounding) as long as integer and fraction together are below 2^53; sfloatvar_to_float of a number with set sign bit is minus its magnitude, exactly under the same bound. Python's int/int and float(int) are correctly rounded. (Expected and refuted: the same for positive signed numbers, whose integer part loses its highest set bit.)", "quantifier": "every pair of payloads", "why_tests_cant": "All payload lengths; rounding.", "anchors": ["okdmr/kaitai/motorola/motorola_utils.py:ufloatvar_to_float", "okdmr/kaitai/motorola/motorola_utils.py:sfloatvar_to_float"]}
{"id": "C46", "title": "Byte swapping", "statement": "byteswap_bytes returns a string one byte shorter than its argument (empty for empty), whose byte i is the byte of the argument at position i xor 1 (pairs swapped); in particular the 34-byte IPSC payload becomes the 33-byte DMR frame; swapping twice restores the data without its last two bytes; two arguments of equal length give the same result exactly when they agree except in the one lost byte.", "quantifier": "every byte string", "why_tests_cant": "All lengths and contents.", "anchors": ["okdmr/kaitai/tools/byteswap.py:byteswap_bytearray"]}
{"id": "C47", "title": "Byte swapping and the caller's buffer", "statement": "byteswap_bytes leaves its argument alone; byteswap_bytearray leaves the caller's bytearray with the pairs swapped in place (and padded with 0 to even length).", "quantifier": "every buffer", "why_tests_cant": "Aliasing effect on every buffer.", "anchors": ["okdmr/kaitai/tools/byteswap.py"]}
{"id": "C48", "title": "prettyprint shows exactly the decoded attributes", "statement": "_prettyprint of any parsed object terminates although the object graph is cyclic through _parent and _root, and yields a nested dictionary that contains each attribute of each nested object exactly once, never the bookkeeping attributes _io/_parent/_root/_debug, with lists mapped element-wise and scalars unchanged.", "quantifier": "every object graph a parser can build, of any depth", "why_tests_cant": "Unbounded nesting and cyclic references.", "anchors": ["okdmr/kaitai/tools/prettyprint.py"]}
{"id": "C49", "title": "Debug command line tools process messages independently and in order", "statement": "ProtocolDebug._impl prints for each hex argument in order the pretty-printed object, stops at the first argument that fails with that argument's exception after having printed all earlier ones, and the output for an argument does not depend on the others; for IPSC frames it prints derived values, and the DMR DATA line (66 hex digits) iff slot type is not sync.", "quantifier": "every list of arguments", "why_tests_cant": "All argument lists.", "anchors": ["okdmr/kaitai/tools/debug.py:ProtocolDebug._impl"]}
{"id": "C50", "title": "Hex input decoding", "statement": "bytes.fromhex on the hexadecimal rendering of any byte string (either case, with whitespace between bytes) returns the byte string; it accepts only digit pairs.", "quantifier": "every byte string", "why_tests_cant": "All strings.", "anchors": ["okdmr/kaitai/tools/debug.py:ProtocolDebug._impl"]}
{"id": "C51", "title": "Text fields are decoded strictly and losslessly", "statement": "ASCII, UTF-8, UTF-16LE and UTF-16BE text fields decode only well-formed text, and the decoded string re-encodes to exactly the bytes of the field; conversely every Unicode string survives encode/decode.", "quantifier": "every byte string, every Unicode string", "why_tests_cant": "Surrogate pairs, overlong forms, truncated units.", "anchors": ["okdmr/kaitai/hytera/text_message_protocol.py", "okdmr/kaitai/homebrew/mmdvm2020.py", "okdmr/kaitai/hytera/datetimestring.py", "okdmr/kaitai/hytera/radio_control_protocol.py"]}
{"id": "C52", "title": "Checksums are reported, never enforced", "statement": "Changing the checksum byte of an HDAP message, the checksum of an HRNP message, the CRC of a data header of a known format, or the CRC (or 5-bit checksum) of a link control word never changes whether the message parses, which error is raised, nor any attribute other than the checksum attribute.", "quantifier": "every packet and every replacement checksum", "why_tests_cant": "Relational property over pairs of packets.", "anchors": ["okdmr/kaitai/hytera/hytera_dmr_application_protocol.py", "okdmr/kaitai/hytera/hytera_radio_network_protocol.py", "okdmr/kaitai/etsi/dmr_data_header.py"]}
{"id": "C53", "title": "Fields are independent", "statement": "In a message of fixed layout, changing the bits of one numeric, flag, enum or byte field (and nothing else) changes that attribute only: the two packets either both fail with the same error or both parse to objects that agree on every other attribute. For fields of any kind, if both packets parse, they differ in that attribute only.", "quantifier": "every fixed-layout message class, every field of it, every pair of packets that differ only in that field's bits", "why_tests_cant": "Relational property over pairs of packets for every field of every class.", "anchors": ["okdmr/kaitai/etsi/dmr_csbk.py", "okdmr/kaitai/etsi/dmr_data_header.py", "okdmr/kaitai/hytera/location_protocol.py", "okdmr/kaitai/homebrew/homebrew2015.py"]}
{"id": "C54", "title": "The Python classes implement the .ksy definitions", "statement": "For every message class, reading with the shipped Python class gives the same object, the same error and the same stream position as reading by the Kaitai Struct definition shipped beside it: same attributes in the same order, same conditions, repetitions, switch cases, sub-streams, enum members and lazily computed properties. A protocol user can read the .ksy file as the documentation of the parser.", "quantifier": "every class readable on its own (156), every enum (65), every lazily computed property (22), both runtime versions, every stream and every byte string", "why_tests_cant": "Equivalence of two programs over all inputs; a sample cannot show that no switch case, enum member or condition of the hand-editable generated file has drifted from its definition.", "anchors": ["okdmr/kaitai/etsi", "okdmr/kaitai/homebrew", "okdmr/kaitai/hytera", "okdmr/kaitai/motorola"]}
{"id": "C55", "title": "Properties evaluated while reading keep their value", "statement": "The lazily evaluated properties that steer the reading of their own message (telemetry specific_service, Hytera text message option_sum_len, RTP len_padding and len_padding_if_exists, Motorola text message custom_pdu_type), read by a user from the parsed object, always give the value determined by the packet (service code at bytes 0-1; option field length + 2 or 0; last byte of the packet, 0 or None; header bits) and never move the stream, in whatever order and however often they are read and wherever the stream position has been moved in between.", "quantifier": "every packet the class accepts, both runtimes, every finite history of property reads and seeks", "why_tests_cant": "Ranges over all packets and all histories of accesses; a wrong memo or a forgotten seek back shows only in particular orders.", "anchors": ["okdmr/kaitai/hytera/telemetry_protocol.py:TelemetryProtocol.specific_service", "okdmr/kaitai/hytera/text_message_protocol.py:TextMessageProtocol.option_sum_len", "okdmr/kaitai/hytera/real_time_transport_protocol.py:RealTimeTransportProtocol.len_padding", "okdmr/kaitai/motorola/text_message_protocol.py:TextMessageProtocol.custom_pdu_type"]}
{"id": "C56", "title": "EOFError means the packet is not complete, and nothing else does", "statement": "For every self-delimiting message class: a packet the class accepts consists of its first n bytes, n being the stream position after parsing; every shorter prefix raises EOFError and every longer prefix gives the same object. An exception other than EOFError is final: no continuation of the bytes is accepted or changes the exception. So a receiver that appends bytes as long as it gets EOFError obtains the same result as one parse of all bytes, however the bytes are split, and no message is a proper prefix of another one.", "quantifier": "all 126 self-delimiting classes, both runtimes, every packet, every truncation, every continuation, every division into chunks", "why_tests_cant": "Ranges over all byte sequences, truncation points and chunkings of all classes; a field read too early, too late or after a validation shows only for particular truncations.", "anchors": ["okdmr/kaitai/etsi/dmr_csbk.py:DmrCsbk._read", "okdmr/kaitai/hytera/hytera_dmr_application_protocol.py:HyteraDmrApplicationProtocol._read", "okdmr/kaitai/hytera/radio_control_protocol.py:RadioControlProtocol._read", "okdmr/kaitai/hytera/location_protocol.py:LocationProtocol._read", "okdmr/kaitai/homebrew/homebrew2015.py:Homebrew2015.TypeRepeaterLoginRequest", "okdmr/kaitai/homebrew/mmdvm2020.py:Mmdvm2020.TypeRadioPosition"]}
{"id": "C57", "title": "A structure is read the same way anywhere in a stream", "statement": "For every class except the eight that look at absolute stream positions or sizes (telemetry, HDAP, HRNP, HSTRP, Homebrew and MMDVM roots, IP site connect heartbeat, full link control): constructing the class on a stream whose position is at byte k gives exactly what from_bytes gives for the bytes from k on - the same object or the same exception - and advances the stream by the same number of bytes, whatever precedes. So a structure that follows a self-delimiting message in the same stream reads as if it were alone. HDAP messages other than telemetry have the same property, and each of the eight classes has bytes whose meaning changes with what precedes them.", "quantifier": "all 156 classes, both runtimes, all bytes before, all bytes of the structure", "why_tests_cant": "Ranges over all offsets, preceding bytes and packets; a seek to an absolute position or a use of the stream size goes unnoticed as long as tests parse from position 0.", "anchors": ["okdmr/kaitai/hytera/telemetry_protocol.py:TelemetryProtocol.specific_service", "okdmr/kaitai/homebrew/homebrew2015.py:Homebrew2015.fifth_letter", "okdmr/kaitai/homebrew/mmdvm2020.py:Mmdvm2020.fifth_letter", "okdmr/kaitai/hytera/ip_site_connect_heartbeat.py:IpSiteConnectHeartbeat._read", "okdmr/kaitai/etsi/full_link_control.py:FullLinkControl._read", "okdmr/kaitai/hytera/real_time_transport_protocol.py:RealTimeTransportProtocol.len_padding_if_exists"]}
{"id": "C58", "title": "Parsed objects conform to the schema of their class", "statement": "Whatever bytes a class is given, if it returns an object then the object has exactly the attributes of the class's format definition, in that order; an attribute is missing only if the definition makes it conditional or its switch has no default; and every attribute has the declared kind: an unsigned number below 2^n for n bits, a number in the range of its integer type, True/False for flags, bytes of the declared (constant) length, the fixed magic bytes, text, a list for repeated attributes, an object of the declared class for nested types; an attribute with an enum is either a member declared in that enum, with the declared number, or a plain number that the enum does not declare. The same holds for every object nested at whatever depth: it is of one of the defined classes and conforms to it.", "quantifier": "all 156 classes (and 11 classes used only inside another), both runtimes, all byte strings, all nested values at any depth", "why_tests_cant": "Ranges over all packets and every value nested in the result; tests look at single values of single packets.", "anchors": ["okdmr/kaitai/etsi/full_link_control.py:FullLinkControl._read", "okdmr/kaitai/hytera/location_protocol.py:LocationProtocol._read", "okdmr/kaitai/etsi/dmr_csbk.py:DmrCsbk._read", "okdmr/kaitai/etsi/dmr_csbk.ksy"]}
{"id": "C59", "title": "The object determines the packet", "statement": "No class forgets anything it has read. If a class, given two byte strings, returns the same object (same attributes with the same values, including the lazily computed attributes that parsing itself has evaluated), then both runs consumed the same number of bits from the front and these bits are identical; for every class whose format ends at a byte boundary the consumed bytes are identical. So two different packets that are consumed completely never give the same object. The only exception is the Motorola text message protocol, which skips three bits after a header without encoding byte: there, two packets that differ only in those bits give the same object.", "quantifier": "155 of the 156 classes (with a counterexample for the remaining one), both runtimes, all pairs of byte strings", "why_tests_cant": "A relation between any two packets of any content and length; a field that is read and thrown away, or read twice, goes unnoticed by tests that look at expected values of single packets.", "anchors": ["okdmr/kaitai/etsi/dmr_csbk.py:DmrCsbk._read", "okdmr/kaitai/homebrew/mmdvm2020.py:Mmdvm2020._read", "okdmr/kaitai/hytera/hytera_dmr_application_protocol.py:HyteraDmrApplicationProtocol._read", "okdmr/kaitai/motorola/text_message_protocol.py:TextMessageProtocol.TextMessageHeaderSequenceAndEncoding._read", "okdmr/kaitai/motorola/text_message_protocol.py:TextMessageProtocol.TextMessage._read"]}
{"id": "C60", "title": "A packet is the concatenation of its attributes", "statement": "Every bit that parsing consumes belongs to exactly one attribute of the result. Writing the attributes of the returned object back to back, in the order of the format definition (integers in their width and byte order, flags as one bit, enum members as their number, strings in their charset, nested objects and lists element by element, missing attributes as nothing), gives exactly the bits that were read, with no gap, overlap or padding; if nothing of the packet is left over, it gives the packet. The only exception is the Motorola text message protocol, for which a packet with three unaccounted bits is exhibited.", "quantifier": "155 of the 156 classes (with a counterexample for the remaining one), both runtimes, all byte strings", "why_tests_cant": "It speaks of every bit of every accepted packet of any length; a wrong byte order, width, or a skipped byte in a rarely used branch needs the very packet that exercises it.", "anchors": ["okdmr/kaitai/etsi/dmr_data.py:DmrData.Rate34Confirmed._read", "okdmr/kaitai/homebrew/mmdvm2020.py:Mmdvm2020._read", "okdmr/kaitai/hytera/hytera_dmr_application_protocol.py:HyteraDmrApplicationProtocol._read", "okdmr/kaitai/hytera/radio_control_protocol.py:RadioControlProtocol._read", "okdmr/kaitai/motorola/text_message_protocol.py:TextMessageProtocol.TextMessage._read"]}
{"id": "C61", "title": "A class accepts exactly the well-formed packets", "statement": "For each class there is a grammar over bits, read off its format definition (values, lengths, counts, conditions, switches, repetitions, magic bytes, charsets and enum numbers), that derives an object together with its bits. Parsing a packet returns an object, having read n bits, if and only if the first n bits of the packet are a derivation of that object (apart from the values of instances the object has cached). So every packet written according to the definition is accepted and gives back the object it was written from, a packet of which no beginning can be derived is rejected with an exception, and no packet has two readings.", "quantifier": "155 of the 156 classes (all but Motorola's text message protocol), both runtimes, all byte strings, all objects, all numbers of bits read", "why_tests_cant": "An equivalence over all packets and all objects: a test shows one packet that is accepted or one that is rejected, never that nothing else is.", "anchors": ["okdmr/kaitai/etsi/dmr_data.py:DmrData.Rate34Confirmed._read", "okdmr/kaitai/hytera/real_time_transport_protocol.py:RealTimeTransportProtocol._read", "okdmr/kaitai/homebrew/mmdvm2020.py:Mmdvm2020._read", "okdmr/kaitai/hytera/radio_control_protocol.py:RadioControlProtocol._read", "okdmr/kaitai/etsi/dmr_csbk.py:DmrCsbk._read"]}
{"id": "C62", "title": "Modules can be imported in any order, and none with a runtime that is too old", "statement": "Take any program that imports modules of the package, in any order and any number of times. With a kaitaistruct runtime whose API_VERSION is absent or at least (0, 9) every import succeeds, every module needed is executed exactly once, afterwards every name a module defines, every global name its functions look up when called and every attribute of another module they use is bound, and the resulting sys.modules depends only on which modules were asked for. With an older API_VERSION every module that depends on the generated parsers raises the 'Incompatible Kaitai Struct Python API' exception on every attempt, the three modules that do not (motorola_utils, byteswap, prettyprint) can still be imported, and no half-initialised module is left in sys.modules.", "quantifier": "all import histories over the 35 modules, all version tuples of the runtime", "why_tests_cant": "Circular imports and missing names show only in particular import orders, and a test run has one runtime version; the claim is about all orders, repetitions and versions.", "anchors": ["okdmr/kaitai/hytera/hytera_dmr_application_protocol.py", "okdmr/kaitai/tools/debug_hytera.py", "okdmr/kaitai/tools/debug.py", "okdmr/kaitai/motorola/text_message_protocol.py", "okdmr/kaitai/hytera/location_protocol.py"]}
{"id": "C63", "title": "Packets stored back to back in a file are read one at a time", "statement": "Cls.from_io(f) on an open file reads one packet at the file's position and leaves the file behind it: in a file that holds self-delimiting, position-independent packets back to back, successive from_io calls return exactly the objects from_bytes gives for the individual packets, whatever attributes and lazily evaluated properties of the objects made so far are accessed in between. Such an access gives the same answer at any time, and the answer of the packet read on its own; the exceptions are DmrDataHeader.data and LocationProtocol.opcode, which are decoded from the beginning of the file. A property access that succeeds leaves the file position alone (all 22 properties); one that fails may not. Cls.from_file(name) is from_bytes of the contents, and leaves the file open exactly if it succeeds.", "quantifier": "every runtime version, every list of packets, every bytes behind them, every interleaving of from_io calls with attribute accesses", "why_tests_cant": "the objects share one file position and read lazily; the number of interleavings of constructions and accesses is unbounded", "anchors": ["okdmr/kaitai/etsi/dmr_data_header.py: DmrDataHeader.data", "okdmr/kaitai/hytera/location_protocol.py: LocationProtocol.opcode", "okdmr/kaitai/hytera/radio_ip.py: RadioIp", "all classes: from_io, from_file (inherited)"]}
{"id": "C64", "title": "An object is at most linearly bigger than its packet, and flat", "statement": "No accepted packet blows up: the object a class makes of n bytes holds at most a*n + c values (numbers, flags, texts, byte strings, lists, objects, cached properties, and the characters and bytes in them), with fixed a and c for every class (a table of the 156 classes; a = 0 for 51, 1 for 99, 2 for 4, 6 for MotorolaBinaryXml, 12 for HyteraSimpleTransportReliabilityProtocol), so at most 12 n + 39 for any class; and lists and objects in it are nested at most 8 deep, however long the packet, so that recursive tools such as prettyprint need a bounded stack.", "quantifier": "every class, every runtime version, every accepted byte string of any length", "why_tests_cant": "length fields, counts and nested repetitions come from the packet; that no combination of them multiplies is a statement about all packets of all lengths", "anchors": ["all of okdmr/kaitai/**/*.py", "okdmr/kaitai/hytera/hytera_simple_transport_reliability_protocol.py: options, data", "okdmr/kaitai/motorola/motorola_binary_xml.py: documents", "okdmr/kaitai/tools/prettyprint.py: prettyprint"]}
{"id": "C65", "title": "Objects shared by threads", "statement": "The code behind an attribute access, cut into its atomic steps and run without interruption, does what the property does. If several threads access attributes of one object fresh from its constructor, in any order and with any interleaving of those steps, every answer is the one a single-threaded program gets, nothing is waited for, and the stream and public attributes stay as they were - for every class and attribute but four properties that move the stream when first read: DmrDataHeader.data, LocationProtocol.opcode, Homebrew2015/Mmdvm2020.fifth_letter; these are safe once they have been read. Two threads that read data for the first time at the same moment can only be told EOFError or a body of the header's own format made of twelve consecutive octets of the packet - and for every packet of 12 octets or more there is a schedule in which one is told EOFError (or, from 24 octets, a wrong body that stays cached); opcode and fifth_letter can likewise be decided by the next byte, for good.", "quantifier": "every class, accepted packet, runtime version, number of threads, list of accesses per thread, and every schedule of any length", "why_tests_cant": "the interleavings are unboundedly many and a test run shows one of them; the bad ones need a switch between two particular instructions", "anchors": ["okdmr/kaitai/etsi/dmr_data_header.py: DmrDataHeader.data", "okdmr/kaitai/hytera/location_protocol.py: LocationProtocol.opcode", "okdmr/kaitai/homebrew/homebrew2015.py: fifth_letter", "okdmr/kaitai/homebrew/mmdvm2020.py: fifth_letter", "okdmr/kaitai/hytera/real_time_transport_protocol.py: len_padding, len_padding_if_exists", "all @property definitions of okdmr/kaitai/**/*.py"]}
{"id": "C66", "title": "Which exceptions a property can raise", "statement": "Reading a property (the lazily computed attributes) of an object that came out of an accepted packet raises only what follows, and exactly then: fifth_letter of Homebrew2015/Mmdvm2020 raises EOFError when the stream has fewer than five bytes and UnicodeDecodeError when the fifth is not ASCII; TelemetryProtocol.specific_service and DmrDataHeader.data raise EOFError when the stream has fewer than two or twelve bytes; Gpsdata.gps_available raises UnicodeDecodeError when the status byte is not ASCII; sequence_number of the two Motorola TMS sequence headers raises AttributeError when the packet has no upper bits; option_sum_len of TextMessageProtocol raises AttributeError only if the option flag is set and the length missing. The other properties of all classes never raise. A value that has been read once never raises again. This holds for objects at any depth, for later states of the object with anything cached and the stream anywhere, and for any program on a shared open file, where the only other exception of an attribute access is AttributeError for a name the class has no property and the object no attribute for.", "quantifier": "all 22 properties of all classes, all accepted packets, all objects nested in them, all later caches and stream positions; all programs (constructions, accesses, seeks) on one file", "why_tests_cant": "absence of TypeError, ValueError and other exceptions must hold for every packet and every later state of the object; a test shows one outcome", "anchors": ["okdmr/kaitai/etsi/dmr_data_header.py:DmrDataHeader.data", "okdmr/kaitai/homebrew/homebrew2015.py:Homebrew2015.fifth_letter", "okdmr/kaitai/homebrew/mmdvm2020.py:Mmdvm2020.fifth_letter", "okdmr/kaitai/hytera/gpsdata.py:Gpsdata.gps_available", "okdmr/kaitai/hytera/telemetry_protocol.py:TelemetryProtocol.specific_service", "okdmr/kaitai/hytera/text_message_protocol.py:TextMessageProtocol.option_sum_len", "okdmr/kaitai/hytera/real_time_transport_protocol.py:RealTimeTransportProtocol.len_padding", "okdmr/kaitai/motorola/text_message_protocol.py:sequence_number"]}
{"id": "C67", "title": "Property answers survive a change of the runtime version", "statement": "Upgrading (or downgrading) the stream runtime between 0.10 and 0.11 does not change what a program sees of an object after construction either: the object made of a packet under one version and the one made under the other have the same attributes, and any sequence of attribute and property accesses, in any order, with any seeks of the stream in between, gives the same values and the same exceptions. The same holds for any two objects, nested ones and later states included, with equal attributes and equal stream contents, whatever the stream's position and left-over bits.", "quantifier": "every class, every packet, every sequence of accesses and seeks of any length", "why_tests_cant": "alignment of bit reads differs between the versions, and the lazily computed properties read wherever the stream was left: all packets times all access histories", "anchors": ["okdmr/kaitai/etsi/dmr_data_header.py: data", "okdmr/kaitai/homebrew/homebrew2015.py, mmdvm2020.py: fifth_letter", "okdmr/kaitai/hytera/*.py: all properties", "okdmr/kaitai/motorola/*.py: all properties", "pyproject.toml: kaitaistruct>=0.10"]}
{"id": "C68", "title": "Telling protocols apart by trying their classes", "statement": "A program that does not know the protocol of a datagram can try the classes: of HRNP, HSTRP, RTP, IP site connect, IPSC heartbeat, Homebrew 2015 and MMDVM 2020, no two take the same packet (accept it as something they know: a known command, a keepalive or ping/pong), except the four pairs IPSC/HRNP, IPSC/HSTRP, IPSC/RTP and Homebrew/MMDVM, each of which does have a common packet. The two Homebrew dialects take a common packet exactly with the commands RPTL, RPTK, RPTC, MSTN, MSTC, DMRD (RPTP and MSTP carry PING in one and PONG in the other), and then both read the same values, up to the names of classes and enumerations - except for the repeater configuration, where the 20 characters of Homebrew's description are MMDVM's 19 characters of description and one of slots.", "quantifier": "every byte string of any length, every pair of the seven protocols, every runtime version (also different ones for the two)", "why_tests_cant": "that no packet of any length and content is accepted by two classes is a statement about all packets; tests try a few", "anchors": ["okdmr/kaitai/hytera/hytera_radio_network_protocol.py", "okdmr/kaitai/hytera/hytera_simple_transport_reliability_protocol.py", "okdmr/kaitai/hytera/real_time_transport_protocol.py", "okdmr/kaitai/hytera/ip_site_connect_protocol.py", "okdmr/kaitai/hytera/ip_site_connect_heartbeat.py", "okdmr/kaitai/homebrew/homebrew2015.py", "okdmr/kaitai/homebrew/mmdvm2020.py"]}
