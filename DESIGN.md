# Formal model of OK-DMR/dmr-kaitai in Rocq (Coq 8.16.1)

The code base is a set of Python parsers generated by the Kaitai Struct compiler
(`okdmr/kaitai/{etsi,homebrew,hytera,motorola}/*.py`) from 28 `.ksy` definitions, plus a few hand written
tools (`okdmr/kaitai/tools/*.py`, `okdmr/kaitai/motorola/motorola_utils.py`). There are no encoders.

## Layers (all files in rocq/theories)

| layer | files | content |
|---|---|---|
| values | `PyBase.v` | Python values (`pyval`), exceptions (`exn`), results, enums |
| runtime | `Runtime.v`, `Codec.v`, `PyFloat.v`, `Getters.v` | the `KaitaiStream` methods the code calls, as a state monad over `{buffer, position, bits, bits_left}`, for kaitaistruct 0.10 and 0.11; strict ASCII / UTF-8 / UTF-16 decoders; binary64 arithmetic; memoised properties |
| program | `Enums.v`, `EtsiModel.v`, `HomebrewModel.v`, `HyteraModel.v`, `MotorolaModel.v`, `MotorolaFloat.v`, `ToolsModel.v`, `LazyModel.v`, `AllParsers.v` | one Gallina function per Python `_read`, property and tool function, each with the file and lines it models |
| specification | `Spec.v`, `BitSpec.v`, `DecSpec.v`, `CodecSpec.v`, `*Spec.v`, `Layouts.v` | bit slices of the packet, offset tables, decoders on byte strings; no stream, no monad, no reference to the program layer |
| definitions | `Ksy.v`, `KsyDefs.v`, `KsySchema.v`, `KsyWire.v`, `KsyGrammar.v` | an interpreter for the subset of Kaitai Struct the repository uses and the 28 `.ksy` files transcribed into it |
| imports | `ImportModel.v` | the import graph of the 35 modules and Python's import statement |
| proofs | `*Proofs*.v`, `*Cor*.v`, `DecAlgebra.v`, `FieldLocal.v`, `Ksy{Tac,Proofs1-4,Inst,Typed}.v`, `Inj*.v`, `AllSpecs.v` | lemmas |
| properties | `Prop*.v` | property theorems with `Print Assumptions`, and beside them examples that meet the hypotheses |

Exceptions are values; the monad keeps the stream state on failure (needed for lazily evaluated
attributes). Loops carry fuel `S (length buffer)` and give a model-only error `OutOfFuel` when it is
exhausted; this error is proved unreachable (C03).

## Specification style

A packet is a `list byte`. `ubits b o w` is the `w`-bit most-significant-first number starting at bit
`o`; `slice b k n` are `n` bytes from byte `k`. Fixed layouts are tables `(attribute, bit offset, kind)`
with *explicit* offsets that can be compared with the protocol documents; `fields` decodes a table, giving
`EOFError` when a field does not fit, `ValidationNotEqualError` for a wrong magic, `UnicodeDecodeError` for
bad text. The main theorem of a protocol is total: `from_bytes (parser rt) b = spec b` for all `b` and both
runtimes `rt`, including the exceptions.

Where the unchanged code violates what a user expects the model is kept faithful and a theorem `..._refuted`
with the counterexample (where possible: all of them) is proved beside a theorem that says what the code
does. These are findings about /repo: C10, C17, C28, C29, C31, C41, C42, C43, C44, C45.

A second, independent specification is the set of `.ksy` files (C54): the parsers are proved equal to the
interpretation of these definitions, and every instance (lazy property) equal to the interpretation of its
`instances:` entry, except for accesses that no parsed object admits (`ill_typed`).


## Properties: what is modelled, how it is proved

| id | property | model and proof | status | theorems |
|---|---|---|---|---|
| C01 | Consecutive bit fields are consecutive slices of the packet | `read_bits_int_be` of both runtimes on any list of widths, from any bit offset; induction on the list, arithmetic on `ubits` | proved | `C01_consecutive_slices`, `C01_any_offset`, `C01_no_bit_lost` |
| C02 | Parsing does not depend on which supported kaitaistruct runtime is installed | both runtimes are a parameter `rt` of every parser; every parser equals a specification that does not mention `rt` | proved | `C02_same_result_under_both_runtimes` |
| C03 | Every parser terminates | loops carry fuel; `OutOfFuel` is proved unreachable and the result independent of the amount of fuel | proved | `C03_terminates`, `C03_budget_is_irrelevant` |
| C04 | Malformed packets raise only the documented exceptions | exceptions are values; a predicate over all parsers (EOFError, ValidationNotEqualError, UnicodeDecodeError, ValueError for a negative size) proved from the total specifications | proved | `C04_only_parse_errors` |
| C05 | Enumerated fields never lose the wire value | `resolve_enum` and all enum tables of the repository; general lemma, tables checked by the kernel; `C05_enumerated_fields` covers every parser | proved | `C05_no_enum_declares_a_number_or_a_name_twice`, `C05_field_value`, `C05_wire_number_recoverable`, `C05_injective`, `C05_names_distinguish`, `C05_enumerated_fields` |
| C06 | Self-delimiting protocols ignore trailing bytes | a locality predicate on the monad; the list of self-delimiting parsers, and for all the others a packet whose result depends on the end | proved | `C06_trailing_bytes_ignored`, `C06_includes`, `C06_lazy_attributes`, `C06_mbxml`, `C06_classification`, `C06_others_depend_on_the_end` |
| C07 | Fixed-layout parsing loses no information | fixed layouts as bit tables; a tiling checker, sound by a general theorem, run on each layout | proved | `C07_no_information_lost`, `C07_every_bit_once` |
| C08 | CSBK decoding | total functional specification of CSBK | proved | `C08_csbk_decoding`, `C08_csbk_unknown_opcode`, `C08_csbk_length` |
| C09 | DMR data header decoding | total specification of the header and the body of each format | proved | `C09_data_header_opens`, `C09_data_header_body`, `C09_data_header_total`, `C09_appended_blocks` |
| C10 | The lazily parsed data-header body is stable | lazy attribute as a history of accesses and seeks | proved | `C10_data_header_history`, `C10_data_header_short`, `C10_failing_access_moves_stream_refuted` |
| C11 | Full link control decoding | total specification | proved | `C11_full_link_control_decoding` |
| C12 | Exactly the right checksum is decoded for full link control | total specification, by length and opcode | proved | `C12_checksum_by_length`, `C12_checksum_unknown_flco` |
| C13 | DMR data blocks partition the octets | total specification of all 12 block types; concatenation of the parts is the packet | proved | `C13_blocks`, `C13_partition` |
| C14 | Compressed UDP/IPv4 header decoding | total specification; re-assembly gives the packet | proved | `C14_compressed_udp_decoding`, `C14_compressed_udp_partition` |
| C15 | Homebrew 2015 command decoding | total specification by command | proved | `C15_homebrew_decoding`, `C15_homebrew_unknown_command`, `C15_homebrew_undecodable` |
| C16 | DMRD voice/data frames | total specification with optional tail bytes | proved | `C16_homebrew_dmrd`, `C16_mmdvm_dmrd` |
| C17 | Repeater closing versus configuration | total specification; refutation of the expectation for every affected repeater id | proved | `C17_homebrew_closing_or_configuration`, `C17_mmdvm_closing_or_configuration`, `C17_homebrew_lookahead`, `C17_mmdvm_lookahead`, `C17_configuration_for_every_id_refuted`, `C17_configuration_for_large_id_refuted` |
| C18 | Repeater configuration text is recovered verbatim | injectivity and round trip with an encoder defined in the specification | proved | `C18_homebrew_configuration_accepts`, `C18_mmdvm_configuration_accepts`, `C18_homebrew_configuration_roundtrip`, `C18_mmdvm_configuration_roundtrip`, `C18_homebrew_configuration_injective`, `C18_mmdvm_configuration_injective` |
| C19 | MMDVM 2020 command decoding | total specification by command | proved | `C19_mmdvm_decoding`, `C19_mmdvm_unknown_command`, `C19_mmdvm_undecodable` |
| C20 | Radio IP address | total specification, derived values under any history, injectivity of the dotted form | proved | `C20_radio_ip_decoding`, `C20_radio_ip_derived`, `C20_dotted_injective`, `C20_radio_id_determines` |
| C21 | Radio id (RTP) is the upper three little-endian bytes | total specification, derived values under any history | proved | `C21_radio_id_decoding`, `C21_radio_id_derived`, `C21_radio_id_range` |
| C22 | GPS data fields | total specification; split of the packet | proved | `C22_gpsdata_decoding`, `C22_split`, `C22_gps_available` |
| C23 | Radio registration service | total specification | proved | `C23_registration` |
| C24 | Data delivery states | total specification | proved | `C24_delivery_states` |
| C25 | Data transmit protocol | total specification | proved | `C25_data_transmit` |
| C26 | Hytera text message protocol | total specification | proved | `C26_text_message`, `C26_presence` |
| C27 | Location protocol | total specification by opcode | proved | `C27_location_decoding`, `C27_body_by_opcode`, `C27_quick_gps_payload`, `C27_rssi` |
| C28 | Location protocol general opcode | history of accesses; refutation for embedded messages | proved | `C28_opcode_history`, `C28_opcode_stand_alone`, `C28_opcode_embedded_refuted` |
| C29 | Telemetry protocol | total specification; refutation for embedded messages | proved | `C29_telemetry_decoding`, `C29_body_by_opcode`, `C29_telemetry_embedded_refuted` |
| C30 | Radio control protocol | total specification | proved | `C30_radio_control` |
| C31 | Embedded equals stand-alone | relation between stand-alone and embedded parse, for each HDAP service, for HDAP in HRNP and in HSTRP | proved | `C31_embedded_in_hdap`, `C31_hdap_embedded_in_hrnp`, `C31_hdap_embedded_in_hstrp`, `C31_telemetry_refuted` |
| C32 | HDAP framing | total specification | proved | `C32_hdap_framing`, `C32_hdap_footer`, `C32_unknown_header` |
| C33 | HRNP framing | total specification | proved | `C33_length_and_checksum_not_enforced`, `C33_hrnp_framing`, `C33_data_iff_opcode` |
| C34 | HSTRP framing | total specification of the two loops; uniqueness of the decomposition | proved | `C34_hstrp_framing`, `C34_hstrp_decoding`, `C34_hstrp_determined`, `C34_bad_header` |
| C35 | IPSC frame decoding | total specification | proved | `C35_ipsc_decoding` |
| C36 | IPSC derived values are history independent | history of accesses | proved | `C36_ipsc_derived` |
| C37 | IPSC heartbeat classification | total specification by length | proved | `C37_heartbeat_classification` |
| C38 | RTP packet partition | total specification; re-assembly gives the packet | proved | `C38_rtp_decoding`, `C38_rtp_partition` |
| C39 | Motorola ARS | total specification | proved | `C39_ars_decoding`, `C39_registration`, `C39_registration_complete`, `C39_other_messages`, `C39_short` |
| C40 | Motorola TMP content selection | total specification | proved | `C40_tmp_decoding`, `C40_short`, `C40_custom_pdu_type`, `C40_content_type_injective` |
| C41 | Motorola TMP sequence numbers | total specification of the sequence numbers; exact set of collisions | proved | `C41_text_header_sequence_number`, `C41_ack_header_sequence_number`, `C41_collisions`, `C41_distinct_sequence_numbers_refuted` |
| C42 | MBXML document list | total specification of the loop; refutation | proved | `C42_one_document`, `C42_all_documents_refuted` |
| C43 | uintvar decoding | value of the digits, round trip with an encoder in the specification | proved | `C43_uintvar_bytes`, `C43_uintvar_value`, `C43_roundtrip`, `C43_every_number`, `C43_documented_bound_refuted` |
| C44 | sintvar decoding | same, with the sign | proved | `C44_sintvar_value`, `C44_negative_roundtrip`, `C44_positive_refuted` |
| C45 | ufloatvar / sfloatvar decoding | executable binary64 rounding (`PyFloat.rnd`) proved correctly rounded; exactness where representable | proved | `C45_correct_rounding`, `C45_ufloat_exact`, `C45_sfloat_exact`, `C45_negative_sfloat`, `C45_positive_sfloat_refuted` |
| C46 | Byte swapping | functional specification | proved | `C46_byteswap`, `C46_twice`, `C46_lossy` |
| C47 | Byte swapping and the caller's buffer | heap of mutable buffers | proved | `C47_bytes_untouched`, `C47_bytearray_swapped`, `C47_bytearray_twice` |
| C48 | prettyprint shows exactly the decoded attributes | object graphs (with cycles) and trees from parsed objects | proved | `C48_any_graph`, `C48_parsed_objects` |
| C49 | Debug command line tools process messages independently and in order | trace of printed lines and the way a run ends | proved | `C49_message`, `C49_ipsc_message`, `C49_scripts`, `C49_run`, `C49_no_arguments` |
| C50 | Hex input decoding | functional specification, round trip | proved | `C50_fromhex`, `C50_rejects`, `C50_roundtrip` |
| C51 | Text fields are decoded strictly and losslessly | strict decoders against encoders of the specification | proved | `C51_decode_lossless`, `C51_encode_then_decode`, `C51_encode_then_decode_ascii`, `C51_strict` |
| C52 | Checksums are reported, never enforced | changing the checksum bytes changes the checksum attributes only | proved | `C52_hdap`, `C52_hrnp`, `C52_data_header`, `C52_link_control_crc`, `C52_link_control_cs5`, `C52_link_control_unknown` |
| C53 | Fields are independent | same layouts: changing the bits of one field changes that attribute only | proved | `C53_only_that_attribute_changes`, `C53_both_parse` |
| C54 | The Python classes implement the .ksy definitions | an interpreter for Kaitai definitions (`Ksy.v`) and the 28 definitions (`KsyDefs.v`); every parser equals the interpreted definition | proved | `C54_every_parser_has_its_definition`, `C54_parsers_implement_their_definitions`, `C54_from_bytes`, `C54_enums`, `C54_instances` |
| C55 | Properties evaluated while reading keep their value | history of accesses and seeks on the parsed object | proved | `C55_telemetry_specific_service`, `C55_rtp_len_padding`, `C55_custom_pdu_type`, `C55_option_sum_len` |
| C56 | EOFError means the packet is not complete, and nothing else does | a predicate on the monad (truncation gives EOFError, other errors are final), proved for each parser of `self_delimiting`; induction on the list of chunks | proved | `C56_truncated_packets`, `C56_other_exceptions_are_final`, `C56_reception_in_pieces`, `C56_prefix_free` |
| C57 | A structure is read the same way anywhere in a stream | a predicate on the monad (prepending bytes moves the stream and nothing else), proved for each parser of the list; counterexamples for the eight others | proved | `C57_anywhere_in_a_stream`, `C57_one_after_the_other`, `C57_application_messages`, `C57_position_dependent_classes` |
| C58 | Parsed objects conform to the schema of their class | a type system for Kaitai definitions (`KsySchema.v`, inductive predicates over the syntax); mutual induction over definitions shows the interpreter of C54 keeps it, C54 carries it over to the classes | proved | `C58_objects_conform`, `C58_objects_inside_conform`, `C58_members_are_declared`, `C58_csbk` |
| C59 | The object determines the packet | two runs of the interpreter side by side (`InjProofs.v`): a check on the definition (`InjCheck.v`, run by computation on all definitions) that every bit read ends up in the object, proved sound by mutual induction over definitions; carried to the parsers by C54 | proved | `C59_same_object_same_bits`, `C59_same_object_same_bytes`, `C59_different_packets_different_objects`, `C59_text_message_drops_three_bits` |
| C60 | A packet is the concatenation of its attributes | a relation between a definition, an object and a bit string (`KsyWire.v`, no stream and no interpreter); the check of C59 on the definition makes the interpreter satisfy it, by mutual induction over definitions (`WireProofs.v`); carried to the parsers by C54 | proved | `C60_bits_read_are_the_attributes`, `C60_bytes_read_are_the_attributes`, `C60_packet_is_its_attributes`, `C60_fails_for_text_message` |
| C61 | A class accepts exactly the well-formed packets | a grammar over bits as mutually inductive predicates over the syntax of definitions (`KsyGrammar.v`: no stream, no interpreter, no caches); a check on definitions (run by computation on all of them) under which the interpreter succeeds exactly on derivable packets, proved in both directions by mutual induction over definitions, with a relation between Python objects with caches and objects without (`GrammarProofs.v`); carried to the parsers by C54 | proved | `C61_accepts_exactly_the_grammar`, `C61_exactly_the_object`, `C61_well_formed_packets_are_accepted`, `C61_other_packets_are_rejected`, `C61_unambiguous` |
| C62 | Modules can be imported in any order, and none with a runtime that is too old | a model of Python imports (`ImportModel.v`: `sys.modules`, partially executed modules, removal on failure) over the import graph of the 35 modules (extracted by a script); invariants by induction over the nesting of imports for any graph without cycles (`ImportProofs.v`), then induction over programs | proved | `C62_every_order_works`, `C62_order_does_not_matter`, `C62_old_runtime_is_refused`, `C62_modules_without_the_runtime` |
| C63 | Packets stored back to back in a file are read one at a time | a world of one file, its position and the live objects on it (`SessionModel.v`); invariant over the actions of a program: every object answers as when it was made (properties are memos of computations that depend on the file contents, not on its position); `from_io` steps by relocation (C57) and stability (C06) | proved | `C63_properties_do_not_move_the_file`, `C63_a_failing_property_can_move_the_file`, `C63_back_to_back`, `C63_answers_as_stand_alone`, `C63_data_comes_from_the_start_of_the_file`, `C63_opcode_comes_from_the_start_of_the_file`, `C63_from_file` |
| C64 | An object is at most linearly bigger than its packet, and flat | a static cost (values per bit, constant, least number of bits) computed from the definition (`KsySize.v`), proved right for every definition by mutual induction over the definition language with the frames of objects under construction and their caches in the invariant (`SizeProofs.v`, `SizeMain.v`); the 156 definitions by computation, C54 carries it over to the classes; depth from C58 | proved | `C64_class_bounds`, `C64_every_class`, `C64_linear`, `C64_depth` |
| C65 | Objects shared by threads | the code of each property as a program of atomic steps (`ThreadModel.v`); uninterrupted it is the property (`ThreadAlone.v`); an invariant on the shared object, under which every program reaches its answer in at most four (data: ten) of its own steps whatever the others do (`ThreadProofs.v`, `ThreadSafe.v`); the races by explicit schedules, run symbolically for every packet (`ThreadRace.v`) | proved | `C65_uninterrupted`, `C65_any_schedule`, `C65_once_computed`, `C65_data_contained`, `C65_data_race`, `C65_opcode_race`, `C65_fifth_letter_race` |
| C66 | Which exceptions a property can raise | from the attribute types that C58 guarantees, property by property; caches do not change the public attributes, so conformity is an invariant of programs (`PropErrors.v`) | proved | `C66_raises`, `C66_accepted`, `C66_program` |
| C67 | Property answers survive a change of the runtime version | a relation between two runs (equal answers, equal caches, equal bytes) proved for each property by going through its computation under both runtimes; the stream a constructor leaves holds the packet (a by-product of C64); induction on the history | proved | `C67_same_answers`, `C67_any_state`, `C67_accepted_by_both` |
| C68 | Telling protocols apart by trying their classes | what a taken packet starts with, from the decoding theorems of the seven classes; comparison of the starts; witnesses for the confusable pairs; the two dialects by a relation between their field tables | proved | `C68_told_apart`, `C68_confusable`, `C68_homebrew_dialects`, `C68_dialects_agree`, `C68_configuration` |

## Trusted base

* Coq's kernel (`coqc`, `coqchk`). `vm_compute` is used in examples and finite checks; `native_compute` is not.
* `Print Assumptions` is run on every property theorem in the `Prop*.v` files: each is *Closed under the
  global context*. There are no axioms, parameters, admitted proofs, functors or module types of ours. The standard
  library's `Coq.ssr.ssrunder` (loaded with `ssreflect`'s `Under_rel` module type through the prelude) makes
  `coqchk` list 7 module fields; no theorem depends on them.
* Our reading of the Python source, cited definition by definition, and of the `kaitaistruct` runtime, which
  is not in the repository (stated in `Runtime.v`): reads, seeks, bit buffering, `is_eof`, alignment. In
  0.11 `EndOfStreamError` is an `EOFError` and `InvalidArgumentError` a `ValueError`; both versions are
  modelled by the common base class.
* `KsyDefs.v` is a transcription of the `.ksy` files (made by a script and read over); `Ksy.v` gives the
  meaning of the constructs that occur there.
* The model is validated by `RepoTests.v`: every message and every assertion of the repository's test suite (okdmr/tests), evaluated on the model under both runtimes.
* Which properties were listed, and the English reading of the specification files.

## Modelled

* Every `_read` of every class in `okdmr/kaitai/{etsi,homebrew,hytera,motorola}`, nested classes included (`AllParsers.v` lists them).
* Every property (Kaitai *instance*), with its memo attribute, its reads and its seeks; histories of accesses and of
  `_io.seek` calls between them.
* Every enum; unknown numbers stay numbers.
* `motorola_utils.py`, `tools/byteswap.py`, `tools/prettyprint.py`, `tools/debug*.py` and the console scripts of `pyproject.toml`.
* The import statements, the version check and the top-level names of every module (`ImportModel.v`); modules outside the repository are taken to be importable, with the names asked for, and the package `__init__.py` files (all empty) are left out.
* The code of every property in atomic steps, for threads (`ThreadModel.v`).
* CPython's `bytes.decode` (strict; ASCII, UTF-8, UTF-16LE/BE), `bytes.fromhex`, `bytes.hex`, `int / int`, `int + float`, unary minus.

## Not modelled, simplified

* `close`, `with`, `__repr__`; `from_io` and `from_file` are modelled for C63 only, on files that nobody else moves or writes; a file there is seekable.
* `_debug`; `_raw__m_data` (the undecoded copy of the data-header body) is modelled in C65 only.
* Threads (C65): an operation of `KaitaiStream` is one step; CPython could switch inside one (between the bit-buffer reset and the read, say), which is not modelled.
* `_parent` and `_root` of objects whose type is imported from another file: they get those of a local nested type.
  Nothing in the repository reads them on such objects except as modelled.
* Python's recursion limit, memory limits, `KeyboardInterrupt`.
* The text layout of `pprint` (the value handed to it is modelled).
* `argparse` for arguments that start with `-`: the model ends with `Dashes` and C49 says nothing about such runs.
* `payload[0]` of an empty list in `motorola_utils.py` (IndexError): parsed payloads are never empty. NaN cannot occur; infinities give `OverflowError` or, for a sum, `Inf`.
* The messages of exceptions other than those in `exn`.

## Wrong programs

`seeded/LOG.jsonl` records the mutation tests: hand-written bugs, one or more per property (with the theorems that no
longer prove: every failing lemma was admitted and `Print Assumptions` used to find the tainted
theorems), and a random sample of automatic mutants. Survivors led to `C49_scripts`, `C54_*` and a tighter `C49_run`.
