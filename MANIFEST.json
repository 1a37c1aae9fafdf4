{
 "claims": [
  {
   "property": "C01",
   "status": "proved",
   "theorems": [
    "C01_construct",
    "C01_closed"
   ],
   "note": ""
  },
  {
   "property": "C02",
   "status": "proved",
   "theorems": [
    "C02_equality",
    "C02_equivalence"
   ],
   "note": ""
  },
  {
   "property": "C03",
   "status": "partial",
   "theorems": [
    "C03_refuted",
    "C03_partial"
   ],
   "note": "The full statement is false of the code (operands swapped when the left denominator is smaller): C03_refuted. C03_partial: exact behaviour of all four operators for every pair."
  },
  {
   "property": "C04",
   "status": "proved",
   "theorems": [
    "C04_add",
    "C04_laws"
   ],
   "note": ""
  },
  {
   "property": "C05",
   "status": "proved",
   "theorems": [
    "C05_mul",
    "C05_laws"
   ],
   "note": ""
  },
  {
   "property": "C06",
   "status": "proved",
   "theorems": [
    "C06_to"
   ],
   "note": ""
  },
  {
   "property": "C07",
   "status": "proved",
   "theorems": [
    "C07_normalized",
    "C07_canonical"
   ],
   "note": ""
  },
  {
   "property": "C08",
   "status": "proved",
   "theorems": [
    "C08_round_trip",
    "C08_distinct"
   ],
   "note": ""
  },
  {
   "property": "C09",
   "status": "proved",
   "theorems": [
    "C09_meaning"
   ],
   "note": ""
  },
  {
   "property": "C10",
   "status": "partial",
   "theorems": [
    "C10_refuted",
    "C10_partial"
   ],
   "note": "The full statement is false of the code (re.match ignores trailing text, e.g. C4x is accepted): C10_refuted. C10_partial: exactly the strings not starting with A-G are rejected, all others mean their longest notation prefix."
  },
  {
   "property": "C11",
   "status": "proved",
   "theorems": [
    "C11_octave",
    "C11_parsed",
    "C11_printed"
   ],
   "note": ""
  },
  {
   "property": "C12",
   "status": "proved",
   "theorems": [
    "C12_transposition",
    "C12_order"
   ],
   "note": ""
  },
  {
   "property": "C13",
   "status": "partial",
   "theorems": [
    "C13_partial",
    "C13_float_base",
    "C13_float_octave",
    "C13_float_error",
    "C13_float_increasing",
    "C13_float_refuted",
    "C13_float_overflow",
    "C13_float_underflow",
    "C13_pow_contract"
   ],
   "note": "over the reals everything holds; of the binary64 computation it is false at the ends (OverflowError, underflow to 0) and proved up to a relative error of (|pitch - 57| / 12 + 4) / 2^53 in between, for every pow with an error of at most one unit in the last place"
  },
  {
   "property": "C14",
   "status": "proved",
   "theorems": [
    "C14_note"
   ],
   "note": ""
  },
  {
   "property": "C15",
   "status": "proved",
   "theorems": [
    "C15_transposed",
    "C15_with_duration",
    "C15_with_velocity"
   ],
   "note": ""
  },
  {
   "property": "C16",
   "status": "partial",
   "theorems": [
    "C16_equality",
    "C16_refuted",
    "C16_partial",
    "C16_spec_order"
   ],
   "note": "Equality part proved in full (C16_equality). The ordering part is false of the code: C16_refuted; C16_partial characterises all four operators for every pair."
  },
  {
   "property": "C17",
   "status": "proved",
   "theorems": [
    "C17_contents",
    "C17_constructor"
   ],
   "note": ""
  },
  {
   "property": "C18",
   "status": "proved",
   "theorems": [
    "C18_order"
   ],
   "note": ""
  },
  {
   "property": "C19",
   "status": "partial",
   "theorems": [
    "C19_refuted",
    "C19_partial",
    "C19_one"
   ],
   "note": "An inserted iteration can change the later order of notes that share position and tone (C19_refuted). C19_partial: everything else is unaffected, and the order too when such notes have comparable durations; C19_one: a single observation changes nothing."
  },
  {
   "property": "C20",
   "status": "proved",
   "theorems": [
    "C20_len"
   ],
   "note": ""
  },
  {
   "property": "C21",
   "status": "partial",
   "theorems": [
    "C21_refuted",
    "C21_shrinks_refuted",
    "C21_partial",
    "C21_uniform"
   ],
   "note": "False of the code (comparison bug of C03): C21_refuted. C21_partial: always the end of some note; the right-most end under a condition on denominators."
  },
  {
   "property": "C22",
   "status": "partial",
   "theorems": [
    "C22_refuted",
    "C22_partial",
    "C22_at_length"
   ],
   "note": "The layout of groups is false of the code for groups whose denominators decrease (C22_refuted); C22_partial covers all other sequences; the first half (notes go to the current length) is proved in full."
  },
  {
   "property": "C23",
   "status": "proved",
   "theorems": [
    "C23_iterable"
   ],
   "note": ""
  },
  {
   "property": "C24",
   "status": "proved",
   "theorems": [
    "C24_rejected",
    "C24_accepted"
   ],
   "note": ""
  },
  {
   "property": "C25",
   "status": "partial",
   "theorems": [
    "C25_refuted",
    "C25_partial"
   ],
   "note": "zip stops at the shorter track: a beginning of a track equals it, equality is not transitive (C25_refuted). C25_partial: reflexive, symmetric, exact for tracks of the same length that are consistent."
  },
  {
   "property": "C26",
   "status": "partial",
   "theorems": [
    "C26_refuted",
    "C26_partial"
   ],
   "note": "False for notes sharing position and tone with durations of different denominators (C26_refuted); C26_partial covers all others."
  },
  {
   "property": "C27",
   "status": "proved",
   "theorems": [
    "C27_names",
    "C27_intervals",
    "C27_aliases"
   ],
   "note": ""
  },
  {
   "property": "C28",
   "status": "proved",
   "theorems": [
    "C28_defaults"
   ],
   "note": ""
  },
  {
   "property": "C29",
   "status": "proved",
   "theorems": [
    "C29_transposition",
    "C29_shape"
   ],
   "note": ""
  },
  {
   "property": "C30",
   "status": "proved",
   "theorems": [
    "C30_round_trip"
   ],
   "note": ""
  },
  {
   "property": "C31",
   "status": "proved",
   "theorems": [
    "C31_encoding"
   ],
   "note": ""
  },
  {
   "property": "C32",
   "status": "proved",
   "theorems": [
    "C32_file",
    "C32_layout"
   ],
   "note": ""
  },
  {
   "property": "C33",
   "status": "partial",
   "theorems": [
    "C33_refuted",
    "C33_never",
    "C33_partial"
   ],
   "note": "False of the code: pulses_per_quarter from 256 to 32767 is accepted but every dump then raises OverflowError (C33_refuted, C33_never). C33_partial: up to 255 every representable track is written unless the body takes 2^32 bytes."
  },
  {
   "property": "C34",
   "status": "proved",
   "theorems": [
    "C34_nothing_written"
   ],
   "note": ""
  },
  {
   "property": "C35",
   "status": "proved",
   "theorems": [
    "C35_notes"
   ],
   "note": ""
  },
  {
   "property": "C36",
   "status": "proved",
   "theorems": [
    "C36_bytes",
    "C36_out_of_range",
    "C36_reading",
    "C36_equivalent"
   ],
   "note": ""
  },
  {
   "property": "C37",
   "status": "proved",
   "theorems": [
    "C37_byte",
    "C37_monotone",
    "C37_read_back",
    "C37_again"
   ],
   "note": ""
  },
  {
   "property": "C38",
   "status": "proved",
   "theorems": [
    "C38_pulses",
    "C38_monotone",
    "C38_exact",
    "C38_disjoint"
   ],
   "note": ""
  },
  {
   "property": "C39",
   "status": "proved",
   "theorems": [
    "C39_value",
    "C39_monotone",
    "C39_rewritten"
   ],
   "note": ""
  },
  {
   "property": "C40",
   "status": "partial",
   "theorems": [
    "C40_refuted",
    "C40_round_trip_partial",
    "C40_equal_partial"
   ],
   "note": "false for a note of no duration at the start of another note of its tone, and for files of 16 MB and more (C44); proved for all others: the notes of one tone do not overlap and, if two start at one position, have comparable durations"
  },
  {
   "property": "C41",
   "status": "partial",
   "theorems": [
    "C41_refuted",
    "C41_partial",
    "C41_quiet",
    "C41_at_most"
   ],
   "note": "false for overlapping notes of one tone and for velocities below about 1/127; proved for the others; never more notes than before"
  },
  {
   "property": "C42",
   "status": "partial",
   "theorems": [
    "C42_refuted",
    "C42_partial"
   ],
   "note": "false: RecursionError for a track that starts without a status byte, AssertionError for division 0; proved that nothing else happens and that these happen only then"
  },
  {
   "property": "C43",
   "status": "proved",
   "theorems": [
    "C43_truncated"
   ],
   "note": ""
  },
  {
   "property": "C44",
   "status": "partial",
   "theorems": [
    "C44_refuted",
    "C44_chunk",
    "C44_rejected",
    "C44_partial"
   ],
   "note": "false: only 3 of the 4 size bytes are used; proved below 2^24 bytes"
  },
  {
   "property": "C45",
   "status": "partial",
   "theorems": [
    "C45_refuted",
    "C45_partial",
    "C45_exclusive"
   ],
   "note": "false for system exclusive messages (MIDIParsingError); proved for every other message"
  },
  {
   "property": "C46",
   "status": "proved",
   "theorems": [
    "C46_running",
    "C46_same_events"
   ],
   "note": ""
  },
  {
   "property": "C47",
   "status": "partial",
   "theorems": [
    "C47_channels",
    "C47_refuted",
    "C47_partial",
    "C47_dumped_partial"
   ],
   "note": "false for files and tracks without notes, which are read as an empty track on channel 0; proved for the others"
  },
  {
   "property": "C48",
   "status": "partial",
   "theorems": [
    "C48_refuted",
    "C48_partial"
   ],
   "note": "false because of the comparison of signatures (C03); proved if denominators never decrease in the order of channels, and that it is the signature of some channel always"
  },
  {
   "property": "C49",
   "status": "proved",
   "theorems": [
    "C49_any_file",
    "C49_stream",
    "C49_unique"
   ],
   "note": ""
  },
  {
   "property": "C50",
   "status": "proved",
   "theorems": [
    "C50_result",
    "C50_invalid"
   ],
   "note": ""
  },
  {
   "property": "C51",
   "status": "proved",
   "theorems": [
    "C51_input",
    "C51_independent",
    "C60_not_mentioned"
   ],
   "note": ""
  },
  {
   "property": "C52",
   "status": "partial",
   "theorems": [
    "C52_refuted",
    "C52_partial"
   ],
   "note": "false when notes of one tone and position have different durations with different denominators; outcome and size never depend on the order, and bytes do not for all other contents"
  },
  {
   "property": "C53",
   "status": "partial",
   "theorems": [
    "C53_refuted",
    "C53_partial"
   ],
   "note": "false for resolutions that do not divide 4096 (96 among them): a note off the grid moves by a pulse each time; proved for resolutions that divide 4096 and for notes on the grid"
  },
  {
   "property": "C54",
   "status": "proved",
   "theorems": [
    "C54_decimal",
    "C54_signatures",
    "C54_tones"
   ],
   "note": ""
  },
  {
   "property": "C55",
   "status": "proved",
   "theorems": [
    "C55_read",
    "C55_parser",
    "C55_header"
   ],
   "note": ""
  },
  {
   "property": "C57",
   "status": "proved",
   "theorems": [
    "C57_outcome",
    "C57_meaning",
    "C57_unique"
   ],
   "note": ""
  },
  {
   "property": "C58",
   "status": "proved",
   "theorems": [
    "C58_loaded"
   ],
   "note": ""
  },
  {
   "property": "C59",
   "status": "proved",
   "theorems": [
    "C59_apart"
   ],
   "note": ""
  },
  {
   "property": "C60",
   "status": "proved",
   "theorems": [
    "C60_independent",
    "C60_not_mentioned",
    "C60_operations"
   ],
   "note": ""
  },
  {
   "property": "C61",
   "status": "partial",
   "theorems": [
    "C61_refuted",
    "C61_partial",
    "C61_self",
    "C61_fresh"
   ],
   "note": "false when the loop runs over the track that is added to: it never stops unless the first addition needs a larger denominator"
  },
  {
   "property": "C62",
   "status": "partial",
   "theorems": [
    "C62_refuted",
    "C62_partial",
    "C62_note",
    "C62_note_text",
    "C62_track_text",
    "C62_digits_contract"
   ],
   "note": "notes: in full; tracks: signature, number and multiset of placed notes always survive, equality fails only when notes of one tone and position have different durations with different denominators"
  },
  {
   "property": "C63",
   "status": "proved",
   "theorems": [
    "C63_note",
    "C63_note_text",
    "C63_track"
   ],
   "note": ""
  },
  {
   "property": "C64",
   "status": "proved",
   "theorems": [
    "C64_track",
    "C64_writer",
    "C64_reader",
    "C64_dumps",
    "C64_loads",
    "C64_round_trip"
   ],
   "note": "the round trip under the conditions of C40"
  },
  {
   "property": "C65",
   "status": "proved",
   "theorems": [
    "C65_writes",
    "C65_round_trip",
    "C65_test_suite"
   ],
   "note": ""
  },
  {
   "property": "C66",
   "status": "proved",
   "theorems": [
    "C66_tempo",
    "C66_negative",
    "C66_special",
    "C66_exact",
    "C66_monotone",
    "C66_fits"
   ],
   "note": ""
  },
  {
   "property": "C67",
   "status": "proved",
   "theorems": [
    "C67_total",
    "C67_generated",
    "C67_source",
    "C67_model"
   ],
   "note": "the meaning of a text is a lexer and a parser for modules of this form; the body of _get_parameters is not parsed"
  },
  {
   "property": "C68",
   "status": "proved",
   "theorems": [
    "C68_integers",
    "C68_short",
    "C68_chunk",
    "C68_header",
    "C68_signature",
    "C68_tempo",
    "C68_notes"
   ],
   "note": ""
  },
  {
   "property": "C69",
   "status": "proved",
   "theorems": [
    "C69_deterministic",
    "C69_import"
   ],
   "note": "module level code; classes and functions come from the exported syntax trees"
  },
  {
   "property": "C70",
   "status": "proved",
   "theorems": [
    "C70_new",
    "C70_methods",
    "C70_comparisons"
   ],
   "note": ""
  },
  {
   "property": "C71",
   "status": "proved",
   "theorems": [
    "C71_new",
    "C71_from_notation",
    "C71_methods",
    "C71_comparisons"
   ],
   "note": "the regular expression is run by the matcher of PyRegex.v"
  },
  {
   "property": "C72",
   "status": "proved",
   "theorems": [
    "C72_new",
    "C72_methods",
    "C72_comparisons"
   ],
   "note": "velocities are floats"
  },
  {
   "property": "C73",
   "status": "proved",
   "theorems": [
    "C73_chords"
   ],
   "note": ""
  },
  {
   "property": "C74",
   "status": "proved",
   "theorems": [
    "C74_runs",
    "C74_once",
    "C74_sort",
    "C74_new",
    "C74_read",
    "C74_add",
    "C74_iter",
    "C74_eq",
    "C74_eq_self",
    "C74_repr"
   ],
   "note": "arguments of add are notes and nested tuples and lists of them, none of them the list of the track itself; iteration is that of a loop that does not change the track"
  },
  {
   "property": "C75",
   "status": "proved",
   "theorems": [
    "C75_writer",
    "C75_helpers",
    "C75_dump",
    "C75_module"
   ],
   "note": "the file is an object with content and position, as BytesIO; bpm is a float"
  },
  {
   "property": "C76",
   "status": "proved",
   "theorems": [
    "C76_randomize"
   ],
   "note": "random.gauss is any function of the number of earlier calls and its arguments, math.sqrt any function of its argument"
  },
  {
   "property": "C77",
   "status": "proved",
   "theorems": [
    "C77_bytes",
    "C77_reader",
    "C77_helpers",
    "C77_track",
    "C77_load",
    "C77_module"
   ],
   "note": "the machine has no recursion limit: where CPython raises RecursionError the number of active calls exceeds every bound; the argument of read is not negative"
  },
  {
   "property": "C78",
   "status": "proved",
   "theorems": [
    "C78_round_trip",
    "C78_tests"
   ],
   "note": "random.randint(a, b) is supposed to be between a and b; midi.dumps and midi.loads with their default arguments"
  },
  {
   "property": "C79",
   "status": "proved",
   "theorems": [
    "C79_core",
    "C79_midi",
    "C79_tests"
   ],
   "note": "the programs are in tools/counterexamples.py; the sort is that of CPython and the digits are those of ASCII"
  },
  {
   "property": "C80",
   "status": "proved",
   "theorems": [
    "C80_terms",
    "C80_signature",
    "C80_signature_values",
    "C80_signature_new",
    "C80_tone",
    "C80_note"
   ],
   "note": "the expressions are typed: an operand of another type than the operation is for is not covered (the dispatch on other types is in C70-C73)"
  },
  {
   "property": "C81",
   "status": "proved",
   "theorems": [
    "C81_programs",
    "C81_bound",
    "C81_functions",
    "C81_result",
    "C81_exception",
    "C81_recursion",
    "C81_derive",
    "C81_transpose",
    "C81_copy"
   ],
   "note": "programs with operands of wrong types, or that add to a track while iterating over it, have no meaning in this language and are not covered; random.gauss has to give floats; C81_copy needs consistent notes (without that the order of notes is not determined, see C19 and C26)"
  },
  {
   "property": "C82",
   "status": "proved",
   "theorems": [
    "C82_reads",
    "C82_writes",
    "C82_back"
   ],
   "note": "files of more than 16 MiB or times of 2^28 pulses and more are not covered by the last parts of C82_writes and C82_back"
  },
  {
   "property": "C83",
   "status": "proved",
   "theorems": [
    "C83_score",
    "C83_file",
    "C83_back"
   ],
   "note": "C83_file for at most 2^28 lines, C83_back for at most 1198000"
  },
  {
   "property": "C84",
   "status": "proved",
   "theorems": [
    "C84_randomize",
    "C84_file"
   ],
   "note": "C84_file for at most 2^28 notes; the draws of a call that fails are not counted"
  },
  {
   "property": "C85",
   "status": "proved",
   "theorems": [
    "C85_writes",
    "C85_reads",
    "C85_inverse",
    "C85_times"
   ],
   "note": "the bytes of a variable-length number are for x < 0 the one byte x mod 128; times written again for q <= 4096"
  },
  {
   "property": "C86",
   "status": "proved",
   "theorems": [
    "C86_again"
   ],
   "note": "for at least one and at most 1198000 notes"
  },
  {
   "property": "C87",
   "status": "proved",
   "theorems": [
    "C87_taken_over"
   ],
   "note": "for voices on a grid of 1/128 with at most 1198000 note events"
  },
  {
   "property": "C88",
   "status": "proved",
   "theorems": [
    "C88_channel"
   ],
   "note": "for at least one and at most 1198000 notes"
  },
  {
   "property": "C89",
   "status": "proved",
   "theorems": [
    "C89_append"
   ],
   "note": "the two tracks have to be different objects"
  }
 ]
}
