{
 "claims": [
  {
   "property": "C01",
   "status": "proved",
   "theorems": [
    "C01_total"
   ],
   "note": ""
  },
  {
   "property": "C02",
   "status": "proved",
   "theorems": [
    "C02_shape"
   ],
   "note": ""
  },
  {
   "property": "C03",
   "status": "proved",
   "theorems": [
    "C03_progress"
   ],
   "note": ""
  },
  {
   "property": "C04",
   "status": "proved",
   "theorems": [
    "C04_lossless",
    "C04_tokens_fn"
   ],
   "note": ""
  },
  {
   "property": "C05",
   "status": "proved",
   "theorems": [
    "C05_final"
   ],
   "note": ""
  },
  {
   "property": "C06",
   "status": "proved",
   "theorems": [
    "C06_chunking",
    "C06_eager"
   ],
   "note": ""
  },
  {
   "property": "C07",
   "status": "proved",
   "theorems": [
    "C07_lookahead",
    "C07_enough"
   ],
   "note": ""
  },
  {
   "property": "C08",
   "status": "proved",
   "theorems": [
    "C08_conformance",
    "C08_unique"
   ],
   "note": ""
  },
  {
   "property": "C09",
   "status": "proved",
   "theorems": [
    "C09_arbitrary_bytes"
   ],
   "note": ""
  },
  {
   "property": "C10",
   "status": "proved",
   "theorems": [
    "C10_bad_bytes",
    "C10_never_utf8",
    "C10_incomplete",
    "C10_stray"
   ],
   "note": ""
  },
  {
   "property": "C11",
   "status": "proved",
   "theorems": [
    "C11_whole_characters",
    "C11_any_bytes"
   ],
   "note": ""
  },
  {
   "property": "C12",
   "status": "proved",
   "theorems": [
    "C12_noncanonical"
   ],
   "note": ""
  },
  {
   "property": "C13",
   "status": "proved",
   "theorems": [
    "C13_unicode_data",
    "C13_pictographs_have_no_gcb"
   ],
   "note": ""
  },
  {
   "property": "C14",
   "status": "proved",
   "theorems": [
    "C14_contract",
    "C14_stable",
    "C14_documented_error_refuted"
   ],
   "note": "The doc comment's promise (Error only for bytes that are not a valid first byte) is false; C14_documented_error_refuted proves that, C14_contract is what holds."
  },
  {
   "property": "C15",
   "status": "proved",
   "theorems": [
    "C15_crlf",
    "C15_control",
    "C15_lone_cr",
    "C15_lone_lf"
   ],
   "note": ""
  },
  {
   "property": "C16",
   "status": "proved",
   "theorems": [
    "C16_extending",
    "C16_prepend"
   ],
   "note": ""
  },
  {
   "property": "C17",
   "status": "proved",
   "theorems": [
    "C17_hangul"
   ],
   "note": ""
  },
  {
   "property": "C18",
   "status": "proved",
   "theorems": [
    "C18_flags"
   ],
   "note": ""
  },
  {
   "property": "C19",
   "status": "proved",
   "theorems": [
    "C19_emoji_zwj"
   ],
   "note": ""
  },
  {
   "property": "C20",
   "status": "proved",
   "theorems": [
    "C20_conjuncts"
   ],
   "note": ""
  },
  {
   "property": "C21",
   "status": "proved",
   "theorems": [
    "C21_rescan"
   ],
   "note": ""
  },
  {
   "property": "C22",
   "status": "proved",
   "theorems": [
    "C22_lines",
    "C22_after_control",
    "C22_after_item"
   ],
   "note": ""
  },
  {
   "property": "C23",
   "status": "proved",
   "theorems": [
    "C23_scanner"
   ],
   "note": ""
  },
  {
   "property": "C24",
   "status": "proved",
   "theorems": [
    "C24_guards",
    "C24_no_bad_advance"
   ],
   "note": ""
  },
  {
   "property": "C25",
   "status": "proved",
   "theorems": [
    "C25_too_long",
    "C25_reported"
   ],
   "note": ""
  },
  {
   "property": "C26",
   "status": "proved",
   "theorems": [
    "C26_reader_failure"
   ],
   "note": ""
  },
  {
   "property": "C27",
   "status": "proved",
   "theorems": [
    "C27_memory",
    "C27_unchanged"
   ],
   "note": ""
  },
  {
   "property": "C28",
   "status": "proved",
   "theorems": [
    "C28_generated",
    "C28_total"
   ],
   "note": ""
  },
  {
   "property": "C29",
   "status": "proved",
   "theorems": [
    "C29_success",
    "C29_failures",
    "C29_bytes",
    "C29_emitted",
    "C29_room"
   ],
   "note": "Exact condition for building and compacting, in both directions (C29_success, C29_failures). C29_bytes is the width of the emitted integers, C29_emitted the same in terms of the values (Spec/Limits.v; the two directions leave a gap of at most 16 index blocks, those that may happen to be shared), C29_room a simple sufficient condition."
  },
  {
   "property": "C30",
   "status": "proved",
   "theorems": [
    "C30_grapheme_break_property",
    "C30_emoji_data",
    "C30_derived_core_properties",
    "C30_reproducible",
    "C30_same_lookup"
   ],
   "note": "The files are byte-exact copies in Data/; the ranges of the specification are proved to be what their lines say."
  },
  {
   "property": "C31",
   "status": "proved",
   "theorems": [
    "C31_lines_exist",
    "C31_meaning_exists",
    "C31_file",
    "C31_deterministic",
    "C31_code_points",
    "C31_too_long",
    "C31_edge"
   ],
   "note": ""
  },
  {
   "property": "C32",
   "status": "proved",
   "theorems": [
    "C32_file",
    "C32_deterministic",
    "C32_consistent",
    "C32_malformed"
   ],
   "note": ""
  },
  {
   "property": "C33",
   "status": "proved",
   "theorems": [
    "C33_gcb_names",
    "C33_incb_names",
    "C33_emoji_names",
    "C33_print_parse",
    "C33_value_names",
    "C33_printed",
    "C33_distinct",
    "C33_characters_distinct",
    "C33_error_name_ambiguous"
   ],
   "note": ""
  },
  {
   "property": "C34",
   "status": "proved",
   "theorems": [
    "C34_packing",
    "C34_unpacking"
   ],
   "note": ""
  },
  {
   "property": "C35",
   "status": "proved",
   "theorems": [
    "C35_never_invalid",
    "C35_decisions"
   ],
   "note": ""
  },
  {
   "property": "C36",
   "status": "proved",
   "theorems": [
    "C36_package",
    "C36_at_most_one",
    "C36_constraints_agree",
    "C36_usable"
   ],
   "note": "The v15 and v17 implementations are parameters (v15 is not in the repository)."
  },
  {
   "property": "C37",
   "status": "proved",
   "theorems": [
    "C37_work"
   ],
   "note": ""
  },
  {
   "property": "C38",
   "status": "proved",
   "theorems": [
    "C38_ascii"
   ],
   "note": ""
  },
  {
   "property": "C39",
   "status": "proved",
   "theorems": [
    "C39_short",
    "C39_returns",
    "C39_refuted",
    "C39_any_reader",
    "C39_any_reader_sharp"
   ],
   "note": "True up to 2049 bytes (C39_short), false from 2050 on (C39_refuted: allTokens returns overwritten tokens). Over arbitrary readers true up to 2048 bytes (C39_any_reader), false at 2049 (C39_any_reader_sharp)."
  },
  {
   "property": "C40",
   "status": "proved",
   "theorems": [
    "C40_refuted"
   ],
   "note": "The claim is refuted; C41 gives the exact condition."
  },
  {
   "property": "C41",
   "status": "proved",
   "theorems": [
    "C41_emission"
   ],
   "note": ""
  },
  {
   "property": "C42",
   "status": "proved",
   "theorems": [
    "C42_refuted",
    "C42_without_flags"
   ],
   "note": "The claim as documented is refuted (C42_refuted); C42_without_flags says for which inputs it holds."
  },
  {
   "property": "C43",
   "status": "proved",
   "theorems": [
    "C43_break",
    "C43_second_range",
    "C43_refuted"
   ],
   "note": "Single ranges, also left early: C43_break. Repeated use is refuted (C43_refuted); C43_second_range says what a second range yields."
  },
  {
   "property": "C44",
   "status": "proved",
   "theorems": [
    "C44_end_to_end",
    "C44_lookup",
    "C44_value",
    "C44_broken"
   ],
   "note": "C44_value says directly what the lines assign; C44_broken: no tables from a broken file."
  },
  {
   "property": "C45",
   "status": "proved",
   "theorems": [
    "C45_unambiguous",
    "C45_text",
    "C45_main",
    "C45_committed",
    "C45_reproducible"
   ],
   "note": "gofmt (go/format.Source) is not modelled: the comparison with the committed file is up to white space."
  },
  {
   "property": "C46",
   "status": "proved",
   "theorems": [
    "C46_meaning_unique",
    "C46_file",
    "C46_conformance",
    "C46_test_passes"
   ],
   "note": "C46_conformance also validates Spec/UAX29.v and Spec/UcdRanges.v against the published cases."
  },
  {
   "property": "C47",
   "status": "proved",
   "theorems": [
    "C47_divide",
    "C47_append",
    "C47_append_needs_proviso",
    "C47_part"
   ],
   "note": ""
  },
  {
   "property": "C48",
   "status": "proved",
   "theorems": [
    "C48_seek",
    "C48_exceptions"
   ],
   "note": ""
  },
  {
   "property": "C49",
   "status": "proved",
   "theorems": [
    "C49_prompt",
    "C49_call",
    "C49_small",
    "C49_refuted",
    "C49_sharp"
   ],
   "note": "Safe use: C49_prompt, C49_call (any file), C49_small (kept entries, at most 2048 bytes). Keeping entries of larger files is refuted (C49_refuted); C49_sharp: 2048 is the best bound over all readers."
  },
  {
   "property": "C50",
   "status": "proved",
   "theorems": [
    "C50_reading",
    "C50_file",
    "C50_too_long",
    "C50_edge",
    "C50_published"
   ],
   "note": ""
  },
  {
   "property": "C51",
   "status": "proved",
   "theorems": [
    "C51_any",
    "C51_lookup",
    "C51_determined",
    "C51_proper"
   ],
   "note": "C51_any: the outcome; C51_lookup: what lookups find; C51_determined: one outcome unless a line has exactly 64 KiB; C51_proper: agrees with C44's assignments within Unicode."
  },
  {
   "property": "C52",
   "status": "proved",
   "theorems": [
    "C52_failure",
    "C52_crash",
    "C52_success",
    "C52_status",
    "C52_zero",
    "C52_good",
    "C52_refuted_write",
    "C52_refuted_crash",
    "C52_reproducible"
   ],
   "note": "Positive: C52_failure, C52_crash, C52_success, C52_status, C52_zero, C52_good, C52_reproducible. The stronger expectations are refuted: C52_refuted_write, C52_refuted_crash."
  },
  {
   "property": "C53",
   "status": "proved",
   "theorems": [
    "C53_sequences",
    "C53_flags",
    "C53_flags_on",
    "C53_flags_exist",
    "C53_refuted"
   ],
   "note": "Positive: C53_sequences, C53_flags, C53_flags_on (the latter for every text by C53_flags_exist). The comment on StateAwaitEmojiFlag is refuted: C53_refuted."
  },
  {
   "property": "C54",
   "status": "proved",
   "theorems": [
    "C54_sizes",
    "C54_published"
   ],
   "note": "C54_sizes: exact for property blocks, an interval of width at most 16 for index blocks. C54_published: the numbers for the files in the repository."
  },
  {
   "property": "C55",
   "status": "proved",
   "theorems": [
    "C55_any_bytes",
    "C55_regex"
   ],
   "note": ""
  },
  {
   "property": "C56",
   "status": "proved",
   "theorems": [
    "C56_local",
    "C56_restart",
    "C56_restart_flags",
    "C56_needed"
   ],
   "note": "C56_local, C56_restart, C56_restart_flags; C56_needed shows that none of the three classes can be left out."
  },
  {
   "property": "C57",
   "status": "proved",
   "theorems": [
    "C57_concat",
    "C57_concat_any",
    "C57_parts"
   ],
   "note": "C57_concat needs that b does not begin with a continuation byte; the upper bound alone holds without it (C57_concat_any, with an example where four tokens become one)."
  },
  {
   "property": "C58",
   "status": "proved",
   "theorems": [
    "C58_decompose",
    "C58_equivalent"
   ],
   "note": ""
  },
  {
   "property": "C59",
   "status": "proved",
   "theorems": [
    "C59_refuted",
    "C59_otherwise",
    "C59_compiled"
   ],
   "note": "Refuted as stated in the README (C59_refuted); C59_otherwise: it fails exactly for go1.27."
  },
  {
   "property": "C60",
   "status": "proved",
   "theorems": [
    "C60_fits",
    "C60_stuck",
    "C60_edge"
   ],
   "note": "C60_fits, C60_stuck and C60_edge cover all cases (fits_stuck_edge); examples for each, with both outcomes at the edge. Sharpens C23 and C25."
  },
  {
   "property": "C61",
   "status": "proved",
   "theorems": [
    "C61_counts",
    "C61_work",
    "C61_capacity",
    "C61_quadratic",
    "C61_refuted"
   ],
   "note": "The model counts lookups in an instrumented copy of the Scan loop (Model/Work.v); C61_counts proves that it has the same runs. C61_refuted: no linear bound."
  },
  {
   "property": "C62",
   "status": "proved",
   "theorems": [
    "C62_control",
    "C62_lines",
    "C62_needed"
   ],
   "note": "C62_lines excludes texts with a lone CR as a token; C62_needed shows why."
  },
  {
   "property": "C63",
   "status": "proved",
   "theorems": [
    "C63_conversion",
    "C63_runes",
    "C63_rune_count",
    "C63_kept",
    "C63_only_lost",
    "C63_valid",
    "C63_needed"
   ],
   "note": "Spec/Runes.v states the conversion on its own; C63_conversion: it is a total function. C63_kept is the full claim for kept neighbours, C63_only_lost and C63_needed say which boundaries change next to replaced bytes."
  },
  {
   "property": "C64",
   "status": "proved",
   "theorems": [
    "C64_pairs",
    "C64_reverse",
    "C64_text",
    "C64_refuted",
    "C64_needed",
    "C64_any_order"
   ],
   "note": "C64_refuted is the refutation of unconditional reversal; C64_reverse the exact condition; C64_needed shows that pairs do not decide for loose continuation bytes."
  },
  {
   "property": "C65",
   "status": "proved",
   "theorems": [
    "C65_gcb",
    "C65_emoji",
    "C65_incb",
    "C65_committed",
    "C65_blind",
    "C65_regenerated"
   ],
   "note": "Spec/TableTests.v states what the lines ask. C65_gcb/emoji/incb: exact meaning of passing; C65_committed: they pass; C65_blind: what they cannot see; C65_regenerated: when they pass for freshly generated tables."
  },
  {
   "property": "C66",
   "status": "proved",
   "theorems": [
    "C66_scanner",
    "C66_scanner_ends",
    "C66_scanner_small",
    "C66_scanner_earlier_refuted",
    "C66_scanner_append_refuted",
    "C66_slice",
    "C66_slice_ends",
    "C66_slice_writes",
    "C66_slice_append_refuted"
   ],
   "note": "C66_scanner, C66_scanner_ends: same tokens, same end; C66_scanner_small: earlier tokens too, up to 2048 bytes; C66_slice, C66_slice_ends, C66_slice_writes: cutting up a slice in memory. The *_refuted theorems show what is not safe."
  },
  {
   "property": "C67",
   "status": "proved",
   "theorems": [
    "C67_segments",
    "C67_wrong",
    "C67_exactly",
    "C67_any",
    "C67_committed"
   ],
   "note": "C67_segments: data with followable classes; C67_wrong, C67_exactly: no other data (given six basic classes); C67_any: conduct for any generated tables; C67_committed: the published library is a case."
  },
  {
   "property": "C68",
   "status": "proved",
   "theorems": [
    "C68_respelled",
    "C68_count",
    "C68_order",
    "C68_needed"
   ],
   "note": "C68_respelled, C68_count: any spellings; C68_order: reordered marks; C68_needed: why the conditions."
  },
  {
   "property": "C69",
   "status": "proved",
   "theorems": [
    "C69_canonical",
    "C69_nfd",
    "C69_refuted"
   ],
   "note": "The English claim without the proviso is refuted (C69_refuted); C69_canonical and C69_nfd prove it for all texts without U+21AE. The decomposition data (Data/Canonical.v) are those of Unicode 14, from Python, not from /repo."
  },
  {
   "property": "C70",
   "status": "proved",
   "theorems": [
    "C70_truncate",
    "C70_first",
    "C70_lookahead",
    "C70_lookahead_tight",
    "C70_again",
    "C70_text",
    "C70_ellipsis",
    "C70_ellipsis_needed"
   ],
   "note": "C70_truncate: longest uncut beginning; C70_first, C70_lookahead(_tight): how far one has to look; C70_text, C70_ellipsis(_needed)."
  },
  {
   "property": "C71",
   "status": "proved",
   "theorems": [
    "C71_lookup",
    "C71_scan",
    "C71_total",
    "C71_tokens",
    "C71_needed"
   ],
   "note": "C71_scan, C71_lookup, C71_tokens: equal to the unbounded model; C71_total: range of the advance; C71_needed: with 8-bit ints it would be wrong."
  },
  {
   "property": "C72",
   "status": "proved",
   "theorems": [
    "C72_no_bound",
    "C72_no_window",
    "C72_finite"
   ],
   "note": "C72_no_bound, C72_no_window: no bounded look-behind; C72_finite: a finite automaton. Where restarting is possible is C56."
  },
  {
   "property": "C73",
   "status": "proved",
   "theorems": [
    "C73_parses",
    "C73_scan",
    "C73_autoversion",
    "C73_lookup",
    "C73_begin",
    "C73_transition",
    "C73_properties",
    "C73_names",
    "C73_strings"
   ],
   "note": "C73_scan, C73_autoversion: the split function as parsed from its source; C73_lookup, C73_begin, C73_transition, C73_properties, C73_names, C73_strings: all other functions; C73_parses: the files are in the subset. The generator's sources are not parsed."
  },
  {
   "property": "C74",
   "status": "proved",
   "theorems": [
    "C74_more",
    "C74_deterministic",
    "C74_returns",
    "C74_tokens",
    "C74_unicode",
    "C74_bytes",
    "C74_chunks"
   ],
   "note": "C74_unicode: texts; C74_bytes: arbitrary bytes; C74_chunks: streaming; C74_tokens, C74_returns: exactly the answers of the model; C74_more, C74_deterministic: the answer does not depend on fuel or depth. Both exported functions, every int width from 16 bits; data that an int can count (longer data cannot exist)."
  },
  {
   "property": "C75",
   "status": "proved",
   "theorems": [
    "C75_parses",
    "C75_new",
    "C75_next_entry",
    "C75_next_test_entry",
    "C75_first_field",
    "C75_all_fields"
   ],
   "note": "C75_next_entry, C75_next_test_entry: both directions, for every reader and scanner state; C75_first_field, C75_all_fields, C75_new; C75_parses: both files are in the subset. bufio.Scanner, bytes, strconv, utf8.EncodeRune, fmt.Errorf are the models of Model/Bufio.v and Model/UcdParse.v; slices of the line are values here (their aliasing is C49)."
  },
  {
   "property": "C76",
   "status": "proved",
   "theorems": [
    "C76_results",
    "C76_test_results",
    "C76_deterministic",
    "C76_fields",
    "C76_file",
    "C76_code_points",
    "C76_test_file"
   ],
   "note": "C76_file, C76_code_points: UCD files; C76_test_file: test files; C76_fields: FirstField, AllFields, ranges left early; C76_results, C76_test_results: sessions are exactly those of the model (so C31_too_long etc. carry over); C76_deterministic. \"Executed for long enough\": for all fuel and depth from some point on."
  },
  {
   "property": "C77",
   "status": "proved",
   "theorems": [
    "C77_split",
    "C77_history",
    "C77_guards",
    "C77_unicode",
    "C77_bytes",
    "C77_too_long",
    "C77_collects",
    "C77_allTokens",
    "C77_test_program",
    "C77_sessions"
   ],
   "note": "C77_split: each call; C77_history: every Scan of every history is the model's; C77_guards (as C24), C77_unicode and C77_bytes (as C08, C09, C23, C26), C77_too_long (as C25), C77_collects and C77_allTokens (slices kept without copying, as C39; allTokens only up to 2049 bytes, where C39 shows it is right); C77_test_program, C77_sessions: GraphemeBreakTest.txt, read by the executed ucdparse, passes with the executed ScanGraphemeClusters. bufio.Scanner itself is the model of Model/Bufio.v, not executed from source."
  },
  {
   "property": "C78",
   "status": "proved",
   "theorems": [
    "C78_parses",
    "C78_executed",
    "C78_lookup",
    "C78_reproducible"
   ],
   "note": "C78_parses: the text parses to the two arrays; C78_executed: LookupFirstChar, executed from its source with that file, for every byte string; C78_lookup: with any data files (C51); C78_reproducible: on the committed data files every function is unchanged, so C73, C74 and C77 hold of the regenerated library. The text is the one before format.Source, which only moves white space (C45)."
  }
 ]
}