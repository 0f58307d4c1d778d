{
 "C14": {
  "note": "The doc comment's promise (Error only for bytes that are not a valid first byte) is false; C14_documented_error_refuted proves that, C14_contract is what holds."
 },
 "C29": {
  "note": "Exact condition for building and compacting, in both directions (C29_success, C29_failures). C29_bytes is the width of the emitted integers, C29_emitted the same in terms of the values (Spec/Limits.v; the two directions leave a gap of at most 16 index blocks, those that may happen to be shared), C29_room a simple sufficient condition."
 },
 "C39": {
  "note": "True up to 2049 bytes (C39_short), false from 2050 on (C39_refuted: allTokens returns overwritten tokens). Over arbitrary readers true up to 2048 bytes (C39_any_reader), false at 2049 (C39_any_reader_sharp)."
 },
 "C40": {
  "note": "The claim is refuted; C41 gives the exact condition."
 },
 "C42": {
  "note": "The claim as documented is refuted (C42_refuted); C42_without_flags says for which inputs it holds."
 },
 "C43": {
  "note": "Single ranges, also left early: C43_break. Repeated use is refuted (C43_refuted); C43_second_range says what a second range yields."
 },
 "C30": {
  "note": "The files are byte-exact copies in Data/; the ranges of the specification are proved to be what their lines say."
 },
 "C44": {
  "note": "C44_value says directly what the lines assign; C44_broken: no tables from a broken file."
 },
 "C36": {
  "note": "The v15 and v17 implementations are parameters (v15 is not in the repository)."
 },
 "C45": {
  "note": "gofmt (go/format.Source) is not modelled: the comparison with the committed file is up to white space."
 },
 "C46": {
  "note": "C46_conformance also validates Spec/UAX29.v and Spec/UcdRanges.v against the published cases."
 },
 "C49": {
  "note": "Safe use: C49_prompt, C49_call (any file), C49_small (kept entries, at most 2048 bytes). Keeping entries of larger files is refuted (C49_refuted); C49_sharp: 2048 is the best bound over all readers."
 },
 "C51": {
  "note": "C51_any: the outcome; C51_lookup: what lookups find; C51_determined: one outcome unless a line has exactly 64 KiB; C51_proper: agrees with C44's assignments within Unicode."
 },
 "C52": {
  "note": "Positive: C52_failure, C52_crash, C52_success, C52_status, C52_zero, C52_good, C52_reproducible. The stronger expectations are refuted: C52_refuted_write, C52_refuted_crash."
 },
 "C53": {
  "note": "Positive: C53_sequences, C53_flags, C53_flags_on (the latter for every text by C53_flags_exist). The comment on StateAwaitEmojiFlag is refuted: C53_refuted."
 },
 "C54": {
  "note": "C54_sizes: exact for property blocks, an interval of width at most 16 for index blocks. C54_published: the numbers for the files in the repository."
 },
 "C56": {
  "note": "C56_local, C56_restart, C56_restart_flags; C56_needed shows that none of the three classes can be left out."
 },
 "C57": {
  "note": "C57_concat needs that b does not begin with a continuation byte; the upper bound alone holds without it (C57_concat_any, with an example where four tokens become one)."
 },
 "C59": {
  "note": "Refuted as stated in the README (C59_refuted); C59_otherwise: it fails exactly for go1.27."
 },
 "C60": {
  "note": "C60_fits, C60_stuck and C60_edge cover all cases (fits_stuck_edge); examples for each, with both outcomes at the edge. Sharpens C23 and C25."
 },
 "C61": {
  "note": "The model counts lookups in an instrumented copy of the Scan loop (Model/Work.v); C61_counts proves that it has the same runs. C61_refuted: no linear bound."
 },
 "C62": {
  "note": "C62_lines excludes texts with a lone CR as a token; C62_needed shows why."
 },
 "C63": {
  "note": "Spec/Runes.v states the conversion on its own; C63_conversion: it is a total function. C63_kept is the full claim for kept neighbours, C63_only_lost and C63_needed say which boundaries change next to replaced bytes."
 },
 "C64": {
  "note": "C64_refuted is the refutation of unconditional reversal; C64_reverse the exact condition; C64_needed shows that pairs do not decide for loose continuation bytes."
 },
 "C65": {
  "note": "Spec/TableTests.v states what the lines ask. C65_gcb/emoji/incb: exact meaning of passing; C65_committed: they pass; C65_blind: what they cannot see; C65_regenerated: when they pass for freshly generated tables."
 },
 "C66": {
  "note": "C66_scanner, C66_scanner_ends: same tokens, same end; C66_scanner_small: earlier tokens too, up to 2048 bytes; C66_slice, C66_slice_ends, C66_slice_writes: cutting up a slice in memory. The *_refuted theorems show what is not safe."
 },
 "C67": {
  "note": "C67_segments: data with followable classes; C67_wrong, C67_exactly: no other data (given six basic classes); C67_any: conduct for any generated tables; C67_committed: the published library is a case."
 },
 "C68": {
  "note": "C68_respelled, C68_count: any spellings; C68_order: reordered marks; C68_needed: why the conditions."
 },
 "C69": {
  "note": "The English claim without the proviso is refuted (C69_refuted); C69_canonical and C69_nfd prove it for all texts without U+21AE. The decomposition data (Data/Canonical.v) are those of Unicode 14, from Python, not from /repo."
 },
 "C70": {
  "note": "C70_truncate: longest uncut beginning; C70_first, C70_lookahead(_tight): how far one has to look; C70_text, C70_ellipsis(_needed)."
 },
 "C71": {
  "note": "C71_scan, C71_lookup, C71_tokens: equal to the unbounded model; C71_total: range of the advance; C71_needed: with 8-bit ints it would be wrong."
 },
 "C72": {
  "note": "C72_no_bound, C72_no_window: no bounded look-behind; C72_finite: a finite automaton. Where restarting is possible is C56."
 },
 "C73": {
  "note": "C73_scan, C73_autoversion: the split function as parsed from its source; C73_lookup, C73_begin, C73_transition, C73_properties, C73_names, C73_strings: all other functions; C73_parses: the files are in the subset. The generator's sources are not parsed."
 },
 "C74": {
  "note": "C74_unicode: texts; C74_bytes: arbitrary bytes; C74_chunks: streaming; C74_tokens, C74_returns: exactly the answers of the model; C74_more, C74_deterministic: the answer does not depend on fuel or depth. Both exported functions, every int width from 16 bits; data that an int can count (longer data cannot exist)."
 },
 "C75": {
  "note": "C75_next_entry, C75_next_test_entry: both directions, for every reader and scanner state; C75_first_field, C75_all_fields, C75_new; C75_parses: both files are in the subset. bufio.Scanner, bytes, strconv, utf8.EncodeRune, fmt.Errorf are the models of Model/Bufio.v and Model/UcdParse.v; slices of the line are values here (their aliasing is C49)."
 },
 "C76": {
  "note": "C76_file, C76_code_points: UCD files; C76_test_file: test files; C76_fields: FirstField, AllFields, ranges left early; C76_results, C76_test_results: sessions are exactly those of the model (so C31_too_long etc. carry over); C76_deterministic. \"Executed for long enough\": for all fuel and depth from some point on."
 },
 "C77": {
  "note": "C77_split: each call; C77_history: every Scan of every history is the model's; C77_guards (as C24), C77_unicode and C77_bytes (as C08, C09, C23, C26), C77_too_long (as C25), C77_collects and C77_allTokens (slices kept without copying, as C39; allTokens only up to 2049 bytes, where C39 shows it is right); C77_test_program, C77_sessions: GraphemeBreakTest.txt, read by the executed ucdparse, passes with the executed ScanGraphemeClusters. bufio.Scanner itself is the model of Model/Bufio.v, not executed from source."
 },
 "C78": {
  "note": "C78_parses: the text parses to the two arrays; C78_executed: LookupFirstChar, executed from its source with that file, for every byte string; C78_lookup: with any data files (C51); C78_reproducible: on the committed data files every function is unchanged, so C73, C74 and C77 hold of the regenerated library. The text is the one before format.Source, which only moves white space (C45)."
 }
}