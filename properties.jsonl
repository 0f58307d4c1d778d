{"id": "C01", "title": "The split function is total and never reports an error", "statement": "Every call ScanGraphemeClusters(data, atEOF) terminates, never panics (no index or slice out of range, no 'unreachable' or 'invalid state' panic) and returns a nil error.", "quantifier": "all byte slices data of any length and content, both values of atEOF", "why_tests_cant": "there are infinitely many byte strings; the table walk indexes three levels deep with data-dependent indices, and a single bad table entry panics only on the inputs that reach it", "anchors": [{"file": "textseg/grapheme_clusters.go", "symbols": ["ScanGraphemeClusters"]}, {"file": "textseg/internal/charprops/property_table.go", "symbols": ["LookupFirstChar"]}, {"file": "textseg/internal/machine/state.go", "symbols": ["Begin", "State.Transition", "State.nextState"]}, {"file": "textseg/internal/charprops/property_table_raw.go", "symbols": ["lookupIndices", "lookupProps"]}]}
{"id": "C02", "title": "Return-value shape: nothing, or a non-empty prefix", "statement": "Every call returns either (0, nil) - 'need more' - or (n, token) with 1 <= n <= len(data) and token equal to data[:n].", "quantifier": "all byte slices and both atEOF values", "why_tests_cant": "must hold for every input; an off-by-one in the count shows only when the cluster ends at a particular place", "anchors": [{"file": "textseg/grapheme_clusters.go", "symbols": ["ScanGraphemeClusters"]}]}
{"id": "C03", "title": "Progress at end of input", "statement": "With atEOF = true a non-empty buffer always yields a token of at least one byte, and an empty buffer yields (0, nil) for either flag, so a reading loop can never spin or lose a tail.", "quantifier": "all byte slices", "why_tests_cant": "a livelock or lost tail occurs only on particular truncated or malformed tails", "anchors": [{"file": "textseg/grapheme_clusters.go", "symbols": ["ScanGraphemeClusters"]}]}
{"id": "C04", "title": "Tokenisation is lossless", "statement": "Calling ScanGraphemeClusters(rest, true) repeatedly and dropping the advanced bytes finishes after at most len(data) calls; every token is non-empty and the tokens concatenated are exactly data, in order, nothing dropped, duplicated or altered.", "quantifier": "all byte slices", "why_tests_cant": "an inductive statement about call sequences of unbounded length", "anchors": [{"file": "textseg/grapheme_clusters.go", "symbols": ["ScanGraphemeClusters"]}]}
{"id": "C05", "title": "A token emitted before EOF is final", "statement": "If a call with atEOF = false returns a token, then a call on the same bytes followed by any further bytes, with either flag, returns exactly the same token; and the same for the empty extension (flag flipped).", "quantifier": "all byte slices, all extensions, both flags", "why_tests_cant": "quantifies over all possible futures of the stream", "anchors": [{"file": "textseg/grapheme_clusters.go", "symbols": ["ScanGraphemeClusters"]}, {"file": "textseg/internal/charprops/property_table.go", "symbols": ["LookupFirstChar"]}]}
{"id": "C06", "title": "Chunking invariance of incremental tokenisation", "statement": "Feeding the input in arbitrary chunks (including empty ones and cuts inside a UTF-8 sequence), extracting tokens with atEOF = false whenever one is available and flushing with atEOF = true at the end gives exactly the token list of one-shot tokenisation.", "quantifier": "all inputs and all ways of cutting them into chunks (all arrival schedules)", "why_tests_cant": "the number of chunkings is exponential in the input length; the project's drip test covers one schedule", "anchors": [{"file": "textseg/grapheme_clusters.go", "symbols": ["ScanGraphemeClusters"]}]}
{"id": "C07", "title": "Bounded look-ahead", "statement": "With atEOF = false, whenever the first cluster of the text ends at byte n and at least four more bytes are available, the call returns that cluster: the function never asks for more data than the next four bytes after a cluster. A call that asks for more consumed nothing.", "quantifier": "all byte slices", "why_tests_cant": "a missed early decision deadlocks an interactive reader only for particular contents", "anchors": [{"file": "textseg/grapheme_clusters.go", "symbols": ["ScanGraphemeClusters"]}, {"file": "textseg/internal/charprops/property_table.go", "symbols": ["LookupFirstChar"]}]}
{"id": "C08", "title": "UAX #29 conformance on well-formed UTF-8", "statement": "For every text, i.e. every sequence of Unicode scalar values, tokenising its UTF-8 encoding splits it exactly at the extended grapheme cluster boundaries of UAX #29 rules GB1-GB999 (including GB9c, GB11, GB12/13 with their unbounded look-behind) computed with the Grapheme_Cluster_Break, Extended_Pictographic and Indic_Conjunct_Break values of the Unicode 17 data files.", "quantifier": "all finite sequences of Unicode scalar values", "why_tests_cant": "the published test file has 766 short strings; the rules have unbounded left context", "anchors": [{"file": "textseg/grapheme_clusters.go", "symbols": ["ScanGraphemeClusters"]}, {"file": "textseg/internal/machine/state.go", "symbols": ["Begin", "State.Transition", "State.nextState"]}, {"file": "textseg/internal/charprops/property_table.go", "symbols": ["LookupFirstChar"]}, {"file": "textseg/internal/charprops/property_table_raw.go", "symbols": ["lookupIndices", "lookupProps"]}]}
{"id": "C09", "title": "Segmentation of arbitrary bytes", "statement": "For every byte string, malformed or not, the tokens are exactly the UAX #29 clusters of the sequence obtained by reading each complete structurally well-formed UTF-8 sequence as one character and every other byte as a character of class Control.", "quantifier": "all byte strings", "why_tests_cant": "malformed inputs are unbounded in number and interact with every rule", "anchors": [{"file": "textseg/grapheme_clusters.go", "symbols": ["ScanGraphemeClusters"]}, {"file": "textseg/internal/machine/state.go", "symbols": ["Begin", "State.Transition", "State.nextState"]}, {"file": "textseg/internal/charprops/property_table.go", "symbols": ["LookupFirstChar"]}]}
{"id": "C10", "title": "Invalid bytes are individual clusters", "statement": "A byte that does not belong to a structurally complete UTF-8 sequence (stray continuation byte, lead byte not followed by enough continuation bytes, 0xF8-0xFF) is returned as a token of exactly that one byte, and no token contains such a byte together with anything else.", "quantifier": "all byte strings", "why_tests_cant": "depends on every alignment of malformed bytes and on truncation at EOF", "anchors": [{"file": "textseg/grapheme_clusters.go", "symbols": ["ScanGraphemeClusters"]}, {"file": "textseg/internal/charprops/property_table.go", "symbols": ["LookupFirstChar"]}]}
{"id": "C11", "title": "Characters are never torn", "statement": "If data is the UTF-8 encoding of scalar values then every token is the UTF-8 encoding of a non-empty sequence of consecutive scalar values of the text; in any data each token is a whole number of structurally complete sequences or one invalid byte.", "quantifier": "all texts / all byte strings", "why_tests_cant": "cuts inside a sequence would only show on particular combinations", "anchors": [{"file": "textseg/grapheme_clusters.go", "symbols": ["ScanGraphemeClusters"]}, {"file": "textseg/internal/charprops/property_table.go", "symbols": ["LookupFirstChar"]}]}
{"id": "C12", "title": "Overlong, surrogate and out-of-range sequences", "statement": "A structurally complete sequence that is overlong, encodes a surrogate, or exceeds U+10FFFF is treated as one character without any segmentation property (class Other, InCB None, not pictographic): it never panics and never inherits the class of the scalar value it aliases.", "quantifier": "all 2-, 3- and 4-byte structurally complete sequences (all ~2.1 million), at any position of any input", "why_tests_cant": "the test suite has no such case; the table is indexed by bytes nobody generated entries for", "anchors": [{"file": "textseg/internal/charprops/property_table.go", "symbols": ["LookupFirstChar"]}, {"file": "textseg/internal/charprops/property_table_raw.go", "symbols": ["lookupIndices", "lookupProps"]}]}
{"id": "C13", "title": "Property lookup agrees with the Unicode data files", "statement": "For every Unicode scalar value c and any following bytes, LookupFirstChar on the UTF-8 encoding of c reports the encoding's length and precisely the GCB / Extended_Pictographic / InCB values that GraphemeBreakProperty.txt, emoji-data.txt and DerivedCoreProperties.txt list for c, and None for every value not listed.", "quantifier": "all 1,112,064 scalar values and all byte continuations", "why_tests_cant": "the project's table tests iterate only over listed code points: unlisted ones are never checked, nor continuations", "anchors": [{"file": "textseg/internal/charprops/property_table.go", "symbols": ["LookupFirstChar"]}, {"file": "textseg/internal/charprops/property_table_raw.go", "symbols": ["lookupIndices", "lookupProps"]}, {"file": "textseg/internal/charprops/properties.go", "symbols": ["CharProperties"]}]}
{"id": "C14", "title": "LookupFirstChar contract on arbitrary bytes", "statement": "LookupFirstChar never panics; it returns length 0 exactly for an empty buffer or a lead byte whose sequence length exceeds the buffer; it returns Error with length 1 exactly when the first byte cannot start a sequence or the buffer is long enough but a continuation byte is wrong; otherwise it returns the sequence length 1..4; the answer does not depend on bytes after the sequence and appending bytes never changes a non-zero-length answer; no real character has properties equal to Error.", "quantifier": "all byte slices", "why_tests_cant": "index safety and the absence of an Error sentinel collision have to hold for every table path", "anchors": [{"file": "textseg/internal/charprops/property_table.go", "symbols": ["LookupFirstChar"]}, {"file": "textseg/internal/charprops/property_table_raw.go", "symbols": ["lookupIndices", "lookupProps"]}]}
{"id": "C15", "title": "CR LF is one cluster and controls stand alone", "statement": "In any input, CR immediately followed by LF is one token; every other CR, LF or Control character is a token of its own.", "quantifier": "all byte strings and positions", "why_tests_cant": "has to hold in every context", "anchors": [{"file": "textseg/grapheme_clusters.go", "symbols": ["ScanGraphemeClusters"]}, {"file": "textseg/internal/machine/state.go", "symbols": ["Begin", "State.Transition", "State.nextState"]}]}
{"id": "C16", "title": "Extending characters and prepends attach", "statement": "A character of class Extend, ZWJ or SpacingMark starts a token only at the start of the input or directly after a CR, LF, Control or invalid byte; a Prepend character is followed by a boundary only at the end of the input or before a CR, LF, Control or invalid byte.", "quantifier": "all byte strings and positions", "why_tests_cant": "arbitrarily long runs of combining marks in every context", "anchors": [{"file": "textseg/grapheme_clusters.go", "symbols": ["ScanGraphemeClusters"]}, {"file": "textseg/internal/machine/state.go", "symbols": ["Begin", "State.Transition", "State.nextState"]}]}
{"id": "C17", "title": "Hangul syllables are kept together", "statement": "No boundary between L and L/V/LV/LVT, between LV/V and V/T, or between LVT/T and T, in any context.", "quantifier": "all byte strings and positions", "why_tests_cant": "every context and run length", "anchors": [{"file": "textseg/grapheme_clusters.go", "symbols": ["ScanGraphemeClusters"]}, {"file": "textseg/internal/machine/state.go", "symbols": ["Begin", "State.Transition", "State.nextState"]}]}
{"id": "C18", "title": "Flags: regional indicators pair up from the left", "statement": "In every maximal run of consecutive regional indicators there is a boundary between two of them exactly after every second one counted from the start of the run, so a token never contains three consecutive regional indicators and an odd one is left at the end.", "quantifier": "all texts and all run lengths", "why_tests_cant": "parity over runs of unbounded length", "anchors": [{"file": "textseg/grapheme_clusters.go", "symbols": ["ScanGraphemeClusters"]}, {"file": "textseg/internal/machine/state.go", "symbols": ["Begin", "State.Transition", "State.nextState"]}]}
{"id": "C19", "title": "Emoji ZWJ sequences", "statement": "Between ZWJ and an Extended_Pictographic character there is no boundary exactly when the ZWJ is preceded by an Extended_Pictographic character followed by any number of Extend characters.", "quantifier": "all texts, any number of Extend characters", "why_tests_cant": "look-behind of unbounded length", "anchors": [{"file": "textseg/grapheme_clusters.go", "symbols": ["ScanGraphemeClusters"]}, {"file": "textseg/internal/machine/state.go", "symbols": ["Begin", "State.Transition", "State.nextState"]}]}
{"id": "C20", "title": "Indic conjuncts", "statement": "A consonant (InCB=Consonant) directly preceded by InCB Extend/Linker characters is joined to what precedes exactly when that maximal run of Extend/Linker characters contains at least one Linker and is itself preceded by a consonant; otherwise (and unless preceded by a Prepend character) a consonant starts a new token.", "quantifier": "all texts, any run length and mixture", "why_tests_cant": "look-behind of unbounded length", "anchors": [{"file": "textseg/grapheme_clusters.go", "symbols": ["ScanGraphemeClusters"]}, {"file": "textseg/internal/machine/state.go", "symbols": ["Begin", "State.Transition", "State.nextState"]}]}
{"id": "C21", "title": "A cluster re-scanned alone is one cluster", "statement": "Every token t of any input, passed alone as ScanGraphemeClusters(t, true), is returned whole: (len(t), t).", "quantifier": "all inputs, all their tokens", "why_tests_cant": "universal over inputs; a state machine that depends on dropped left context breaks it", "anchors": [{"file": "textseg/grapheme_clusters.go", "symbols": ["ScanGraphemeClusters"]}, {"file": "textseg/internal/machine/state.go", "symbols": ["Begin", "State.Transition", "State.nextState"]}]}
{"id": "C22", "title": "Line-wise processing equals whole-text processing", "statement": "For all a, b: tokens(a + LF + b) = tokens(a + LF) followed by tokens(b); the same after any Control or invalid byte. Hence text may be split after line feeds and processed in parts.", "quantifier": "all pairs of byte strings", "why_tests_cant": "all contexts on both sides", "anchors": [{"file": "textseg/grapheme_clusters.go", "symbols": ["ScanGraphemeClusters"]}, {"file": "textseg/internal/machine/state.go", "symbols": ["Begin", "State.Transition", "State.nextState"]}]}
{"id": "C23", "title": "Works with bufio.Scanner for every reader", "statement": "A bufio.Scanner using ScanGraphemeClusters over any reader that delivers the input in arbitrary portions (data together with EOF, empty reads below the no-progress limit) yields exactly the one-shot tokens and then stops with a nil error, provided no cluster plus four bytes exceeds the scanner's maximum token size.", "quantifier": "all inputs, all reader schedules, all buffer sizes and limits", "why_tests_cant": "buffer shifting/growing interacts with cluster boundaries in unboundedly many ways", "anchors": [{"file": "textseg/grapheme_clusters.go", "symbols": ["ScanGraphemeClusters"]}, {"file": "textseg/all_tokens_test.go", "symbols": ["allTokens"]}]}
{"id": "C24", "title": "Never trips the Scanner's guards", "statement": "Whatever the reader does (errors, bad counts, empty reads), a bufio.Scanner using ScanGraphemeClusters never fails with ErrNegativeAdvance or ErrAdvanceTooFar, never panics with 'too many empty tokens', and never returns an empty token.", "quantifier": "all readers, all histories of Scan calls", "why_tests_cant": "quantifies over all reader behaviours", "anchors": [{"file": "textseg/grapheme_clusters.go", "symbols": ["ScanGraphemeClusters"]}]}
{"id": "C25", "title": "Over-long clusters are reported, not mangled", "statement": "If scanning stops with ErrTooLong, the tokens delivered so far are exactly the leading clusters of the input, and the cluster that follows them together with at most four bytes of look-ahead does not fit in the scanner's maximum token size.", "quantifier": "all inputs, reader schedules and maximum sizes", "why_tests_cant": "needs clusters of arbitrary length against arbitrary limits", "anchors": [{"file": "textseg/grapheme_clusters.go", "symbols": ["ScanGraphemeClusters"]}]}
{"id": "C26", "title": "Reader failure", "statement": "If the reader fails after delivering some bytes, the Scanner delivers exactly the tokens of the delivered bytes (as at EOF) and then reports that reader's error.", "quantifier": "all inputs, all failure points, all schedules", "why_tests_cant": "every crash point of the reader", "anchors": [{"file": "textseg/grapheme_clusters.go", "symbols": ["ScanGraphemeClusters"]}]}
{"id": "C27", "title": "Read-only, in-bounds, schedule independent", "statement": "A call reads only data[0:len(data)] and the constant tables, never bytes between len and cap, writes nothing, and the token returned is the same memory as data[:advance] (with data's capacity). Its result depends only on the bytes of data, so concurrent calls and concurrent writes outside data cannot influence it under any interleaving.", "quantifier": "all memories, all slices, all interleavings of other goroutines' writes outside data", "why_tests_cant": "schedules cannot be enumerated by tests", "anchors": [{"file": "textseg/grapheme_clusters.go", "symbols": ["ScanGraphemeClusters"]}, {"file": "textseg/internal/charprops/property_table.go", "symbols": ["LookupFirstChar"]}]}
{"id": "C28", "title": "Generator: compacted table equals the assigned properties", "statement": "For every sequence of property assignments (Set / BitwiseOr on runes), if the generator produces tables, then looking up the UTF-8 encoding of any scalar value in them gives exactly the value the sequence gives that character (zero if none; runes that are no scalar value count as U+FFFD), every overlong, surrogate or out-of-range sequence gives zero, and looking up any bytes whatsoever returns without panic. Block sharing, the 16-bit block numbers and shifts, and the aliasing of the root block never make a produced table wrong.", "quantifier": "all assignment sequences and all scalar values", "why_tests_cant": "the generator is run once by hand; its block sharing and 16-bit arithmetic are never tested", "anchors": [{"file": "textseg/internal/charprops/gentable/generate.go", "symbols": ["treeInProgress", "ensureProps", "Compact", "buildCompactedBlocks"]}]}
{"id": "C29", "title": "Generator: exactly when it succeeds", "statement": "The tree is built and compacted exactly when (1) value 4 is never assigned to a character that already has a value, (2) at most 1021 blocks of 64 code points outside ASCII are mentioned, and (3) the two ASCII blocks agree or no block of 64 code points in U+0800..U+FFFF has the values of the first ASCII block. Otherwise the generator panics, with a different panic for each of the three (it never emits a wrong table). A compacted tree is emitted exactly when all its indices fit a byte: in terms of the values, if at most 256 property blocks (blocks of 64 code points with different contents, counted as in Spec/Limits.v) and at most 256 index blocks are needed, and not if more are. Values that mention at most 222 blocks of 64 code points outside ASCII are always emitted.", "quantifier": "all assignment sequences", "why_tests_cant": "all assignment sequences; the conditions are nowhere documented, and today's data are near one of the limits (C54)", "anchors": [{"file": "textseg/internal/charprops/gentable/generate.go", "symbols": ["treeInProgress.Set", "Compact", "buildCompactedBlocks"]}, {"file": "textseg/internal/charprops/generate.go", "symbols": ["main"]}]}
{"id": "C30", "title": "Shipped tables are reproducible from the shipped data files", "statement": "Running the generator on the three UCD files in the repository succeeds and yields exactly the committed lookupIndices and lookupProps.", "quantifier": "the complete generator run over the complete files", "why_tests_cant": "no test runs the generator; the tests compare only listed code points", "anchors": [{"file": "textseg/internal/charprops/gentable/generate.go", "symbols": ["BuildRawPropertyTree"]}, {"file": "textseg/internal/charprops/generate.go", "symbols": ["main"]}, {"file": "textseg/internal/charprops/property_table_raw.go", "symbols": ["lookupIndices", "lookupProps"]}, {"file": "textseg/internal/charprops/ucdparse/ucd_scan.go", "symbols": ["Scanner.NextEntry"]}]}
{"id": "C31", "title": "UCD file parser", "statement": "For every file made of data lines (one code point or range, fields separated by semicolons, arbitrary blanks around them, optional # comment) and of blank or comment-only lines, the scanner returns exactly the listed ranges (end exclusive) with the trimmed fields, in order, and then EOF; comments, blank lines and surrounding blanks never influence the result. A line too long for the scanner (64 KiB or more with its line feed) ends the file with ErrTooLong after the entries of the lines before it; a caller who goes on all the same is given the first 64 KiB of that line as if they were a line, and then ErrTooLong as often as it asks; an unterminated last line of exactly 64 KiB is the one case that depends on the reader's schedule. A data line without a proper range gives an error that says which end is at fault (the start, if both are), names its text and tells whether it is not hexadecimal or too big, and does not stop the scanner.", "quantifier": "all files, all readers and schedules", "why_tests_cant": "all file contents", "anchors": [{"file": "textseg/internal/charprops/ucdparse/ucd_scan.go", "symbols": ["Scanner.NextEntry", "Entry.FirstField", "Fields.Strings", "Fields.FirstString"]}]}
{"id": "C32", "title": "Break-test file parser", "statement": "For every list of segments of scalar values, the test-data scanner parses its rendering with division/multiplication signs back to those segments, and Input is always the concatenation of WantSegments.", "quantifier": "all test files", "why_tests_cant": "all file contents", "anchors": [{"file": "textseg/internal/charprops/ucdparse/testdata_scan.go", "symbols": ["TestDataScanner.NextEntry"]}]}
{"id": "C33", "title": "Property names", "statement": "Every GCB/InCB/emoji property value that a name denotes prints as a name that is looked up to the same value; distinct values that can occur for a character print differently; unknown names map to None. Values without a name print in hexadecimal.", "quantifier": "all strings, all values of the 8-bit property types", "why_tests_cant": "all strings", "anchors": [{"file": "textseg/internal/charprops/properties.go", "symbols": ["LookupGCBProperty", "LookupInCBProperty", "LookupEmojiProperty", "GCBProperty.String", "InCBProperty.String", "CharProperties.String"]}]}
{"id": "C34", "title": "Property packing", "statement": "Combining a GCB value, an emoji value and an InCB value gives a CharProperties from which the InCB value and the GCB (or emoji) value are recovered exactly, as long as at most one of the first two is non-zero; every 8-bit value is the combination of its two parts.", "quantifier": "all values", "why_tests_cant": "bit-level law over the whole value space, stated for all", "anchors": [{"file": "textseg/internal/charprops/properties.go", "symbols": ["MakeCharProperties", "CharProperties.GCBProperty", "CharProperties.InCBProperty"]}]}
{"id": "C35", "title": "State machine: pairwise use is sound", "statement": "Driving Begin/Transition over any sequence of property values never reaches an invalid state, and - for sequences of values that characters can have - the decisions it makes between adjacent characters when restarted at every split are those of UAX #29 with full left context.", "quantifier": "all property sequences", "why_tests_cant": "unbounded sequences", "anchors": [{"file": "textseg/internal/machine/state.go", "symbols": ["Begin", "State.Transition", "State.nextState"]}]}
{"id": "C36", "title": "autoversion selects exactly one implementation", "statement": "For every Go 1.x toolchain the package compiles and exports ScanUTF8Sequences, TokenCount and AllTokens of v15. ScanGraphemeClusters is that of v15 from 1.21 to 1.26 and that of v17 for 1.27, with UnicodeMajorVersion to match; outside that range both names are missing; never are two version files built. Because go.mod asks for at least 1.25, the toolchains that accept the module and find ScanGraphemeClusters in it are exactly 1.25, 1.26 and 1.27.", "quantifier": "all Go minor releases", "why_tests_cant": "tests run under a single toolchain", "anchors": [{"file": "autoversion/textseg/unicode15.go", "symbols": ["ScanGraphemeClusters", "UnicodeMajorVersion"]}, {"file": "autoversion/textseg/unicode17.go", "symbols": ["ScanGraphemeClusters", "UnicodeMajorVersion"]}, {"file": "autoversion/textseg/version_agnostic.go", "symbols": ["ScanUTF8Sequences", "TokenCount", "AllTokens"]}, {"file": "autoversion/go.mod", "symbols": ["go"]}]}
{"id": "C37", "title": "Linear work", "statement": "One-shot tokenisation of n bytes performs at most 2n character lookups; a single call performs at most advance+1 of them when it returns a token.", "quantifier": "all inputs", "why_tests_cant": "asymptotic bound over all inputs", "anchors": [{"file": "textseg/grapheme_clusters.go", "symbols": ["ScanGraphemeClusters"]}]}
{"id": "C38", "title": "Plain ASCII", "statement": "For ASCII text every byte is its own token, except that CR LF is one token.", "quantifier": "all ASCII strings", "why_tests_cant": "all strings", "anchors": [{"file": "textseg/grapheme_clusters.go", "symbols": ["ScanGraphemeClusters"]}]}
{"id": "C39", "title": "Collecting tokens without copying", "statement": "The allTokens helper (bufio.Scanner over bytes.Reader, keeping scanner.Bytes() without copying) returns the clusters of the buffer for every buffer of up to 2049 bytes; refuted from 2050 bytes on, because the Scanner then moves data inside its 4096-byte buffer under the retained tokens. Over any reader that delivers at most 2048 bytes, in any portions and whatever it leaves in the rest of the space, tokens kept without copying stay the clusters; 2048 is sharp.", "quantifier": "all buffers; all readers and read schedules", "why_tests_cant": "all buffers up to 2049 bytes; the failure needs longer inputs, and test inputs are short", "anchors": [{"file": "textseg/all_tokens_test.go", "symbols": ["allTokens"]}]}
{"id": "C40", "title": "Earliest possible emission (refuted)", "statement": "A call with atEOF = false returns a token whenever every continuation of the data would give the same first cluster. Refuted: after LF (or CR LF, or a lead byte followed by a non-continuation byte) the cluster is already determined but the function asks for more data.", "quantifier": "all byte slices and all continuations", "why_tests_cant": "quantifies over all continuations", "anchors": [{"file": "textseg/grapheme_clusters.go", "symbols": ["ScanGraphemeClusters"]}, {"file": "textseg/internal/charprops/property_table.go", "symbols": ["LookupFirstChar"]}]}
{"id": "C41", "title": "Exactly when a token is emitted before EOF", "statement": "With atEOF = false a call on non-empty data returns its first cluster exactly when the bytes after that cluster are non-empty and do not consist solely of the unfinished beginning of a multi-byte sequence (or the data starts with a bad byte that is not an unfinished sequence); otherwise it asks for more data.", "quantifier": "all byte slices", "why_tests_cant": "all data and all buffer ends inside characters", "anchors": [{"file": "textseg/grapheme_clusters.go", "symbols": ["ScanGraphemeClusters"]}]}
{"id": "C42", "title": "Documented use of Transition (refuted)", "statement": "Starting with Begin and feeding each returned state into the next Transition, as the doc comments describe, yields the UAX #29 decision at every position. Refuted: after a split the machine has to be restarted with Begin (as ScanGraphemeClusters does); otherwise a flag directly after an emoji, consonant or first flag is torn apart. It holds for texts without regional indicators.", "quantifier": "all texts", "why_tests_cant": "quantifies over all sequences; the conformance tests only drive the machine through ScanGraphemeClusters", "anchors": [{"file": "textseg/internal/machine/state.go", "symbols": ["Begin", "State.Transition", "State.nextState"]}]}
{"id": "C43", "title": "Ranging over the fields of an entry (refuted for repeated use)", "statement": "A range over the sequence that AllFields returns sees the fields in order, and a range that is left early has seen exactly the first ones; ranging over the same sequence again gives the same fields. The last part is refuted: a second range continues where the first one stopped and, after a complete first range, yields only the last field.", "quantifier": "all field texts, all points at which the loop is left", "why_tests_cant": "all field lists and all break points; no test ranges twice", "anchors": [{"file": "textseg/internal/charprops/ucdparse/ucd_scan.go", "symbols": ["Entry.AllFields", "Fields.Strings"]}]}
{"id": "C44", "title": "Generator end to end", "statement": "For every three data files without malformed lines and with lines below 64 KiB, however they are read, the generator has exactly one outcome; if it writes tables, a lookup in them gives every character its last Grapheme_Cluster_Break line (or Extended_Pictographic if emoji-data.txt lists it) combined with its InCB lines (for U+FFFD also those of surrogates, which are encoded as U+FFFD). A malformed line, an overlong line or a read error in any of the files prevents tables from being written.", "quantifier": "all file contents, all read schedules, all characters", "why_tests_cant": "all files and all schedules; no test runs the generator", "anchors": [{"file": "textseg/internal/charprops/gentable/generate.go", "symbols": ["BuildRawPropertyTree", "treeInProgress.Compact"]}, {"file": "textseg/internal/charprops/generate.go", "symbols": ["main"]}, {"file": "textseg/internal/charprops/ucdparse/ucd_scan.go", "symbols": ["Scanner.NextEntry"]}]}
{"id": "C45", "title": "The generated source file", "statement": "For every tree the generator writes Go source that declares exactly the two arrays with the tree's elements, or it panics, exactly when an index does not fit a byte. The committed property_table_raw.go is such a source, for the arrays used in lookups, and is what the generator writes for the committed data files, up to white space.", "quantifier": "all trees; all read schedules of the data files; the complete committed file", "why_tests_cant": "all trees; no test compares the committed table file with the generator's output", "anchors": [{"file": "textseg/internal/charprops/generate.go", "symbols": ["main"]}, {"file": "textseg/internal/charprops/property_table_raw.go", "symbols": ["lookupIndices", "lookupProps"]}]}
{"id": "C46", "title": "The published conformance test", "statement": "GraphemeBreakTest.txt, as committed, has exactly one reading, with 766 cases. In each case the expected segments are the grapheme clusters of the text by the rules of UAX #29 and the committed data files, and the tokens. However the file is delivered to the test data scanner, it yields exactly these cases and then io.EOF, and for each of them collecting the tokens (all at once, byte by byte, or over any other reader that delivers the input) ends with the expected segments and no error.", "quantifier": "all read schedules of the test file; for every case, all readers that deliver its input", "why_tests_cant": "the repository's tests run the cases with two readers and one way to read the file", "anchors": [{"file": "textseg/grapheme_clusters_test.go", "symbols": ["TestScanGraphemeClusters", "TestScanGraphemeClusters_partial", "dripReader"]}, {"file": "textseg/internal/charprops/ucdparse/testdata_scan.go", "symbols": ["NextEntry"]}, {"file": "textseg/internal/charprops/ucd/auxiliary/GraphemeBreakTest.txt", "symbols": []}]}
{"id": "C47", "title": "Dividing and extending a text", "statement": "A byte sequence a ++ b has a token boundary after a if and only if its tokens are those of a followed by those of b. Appending anything that does not begin with a continuation byte changes at most the last token, which can only grow; the others stay. (Without that proviso more tokens can change.) Consecutive tokens of any data, taken by themselves, are the same tokens again.", "quantifier": "all byte sequences a, b", "why_tests_cant": "all pairs of byte sequences; no test compares tokenisations of a text and of its parts", "anchors": [{"file": "textseg/grapheme_clusters.go", "symbols": ["ScanGraphemeClusters"]}]}
{"id": "C48", "title": "Starting in the middle of a text", "statement": "Tokenising the rest b of a ++ b from any character on (b does not begin with a continuation byte) finds every later boundary of the whole text, except possibly in front of a regional indicator. Both exceptions are real: a boundary between regional indicators can be missed, and a boundary that is none of the whole text can be found.", "quantifier": "all byte sequences a, b, all later boundaries", "why_tests_cant": "all texts and all positions; tests always start at the beginning", "anchors": [{"file": "textseg/grapheme_clusters.go", "symbols": ["ScanGraphemeClusters"]}]}
{"id": "C49", "title": "How long an entry's Fields are good", "statement": "The Fields of an Entry are a part of the Scanner's buffer. Looked at before the next call of NextEntry they are exactly the fields of the entry's line, over any reader. Kept across later calls they stay as they are when the whole file has at most 2048 bytes, whatever the reader's schedule; with larger files a kept entry can show other text, already over a plain bytes.Reader, and 2048 is the best bound over all readers.", "quantifier": "all readers and their schedules, all files, all sequences of calls, all moments at which an entry is looked at", "why_tests_cant": "all files, read schedules and histories of calls; tests look at each entry at once", "anchors": [{"file": "textseg/internal/charprops/ucdparse/ucd_scan.go", "symbols": ["Scanner.NextEntry", "Entry", "Fields"]}]}
{"id": "C50", "title": "Test-data scanner: every line has one reading", "statement": "Whatever a test-data file contains: each line is skipped (blank or only a comment), or is a case whose segments are the encodings of the numbers between the signs (empty texts and empty segments dropped, numbers that are no character replaced by U+FFFD), or is reported as an error that names the first text between two signs that is neither blank nor a number in range. Exactly one of these applies to each line; results come in the order of the lines, an error does not stop the scanner, and the end of the file is reported as often as one asks. A line too long for the scanner ends the file with ErrTooLong, as in C31.", "quantifier": "all byte sequences as files, all readers and schedules", "why_tests_cant": "all files, including malformed ones; the tests only read the published file", "anchors": [{"file": "textseg/internal/charprops/ucdparse/testdata_scan.go", "symbols": ["TestDataScanner.NextEntry"]}]}
{"id": "C51", "title": "Generator: any three files", "statement": "For any three files and any errors their readers end with - numbers beyond Unicode, malformed or overlong lines, read errors included - the generator's tree builder has exactly one outcome. The lines before the first failure determine the assignments, with numbers taken as signed 32-bit integers. If there is a failure the builder returns it (for a malformed line the error of C31, with the text at fault), unless two of the assignments before it conflict, which panics; otherwise the tables are those of the assignments, and a lookup in them finds for every character the value assigned. Only an unterminated last line of exactly 64 KiB leaves the choice to the read schedule. For files that stay within Unicode the assignments are those of C44.", "quantifier": "all triples of files, all readers, schedules and errors at the end", "why_tests_cant": "all file contents and schedules; no test runs the generator", "anchors": [{"file": "textseg/internal/charprops/gentable/generate.go", "symbols": ["BuildRawPropertyTree"]}, {"file": "textseg/internal/charprops/generate.go", "symbols": ["main"]}]}
{"id": "C52", "title": "Generator command: exit status and output file", "statement": "If the generator command ends with a status other than 0, or panics, the output file is untouched. At every moment the file is as it was or holds a beginning of the new text. Status 0 is reached exactly if the data files can be opened and read, their assignments fit in tables, and the text can be formatted and the file created; if writing did not fail the file then holds the whole text, which declares those tables, and with the published data files it is the committed file up to white space. Refuted: that status 0 means that the file is complete (the error of Write is ignored), and that an interrupted run leaves the old or the new file (the file is truncated in place).", "quantifier": "all files and directories, read schedules, write schedules, write errors and crash points", "why_tests_cant": "all crash points and failures of the file system; no test runs the generator", "anchors": [{"file": "textseg/internal/charprops/generate.go", "symbols": ["main"]}, {"file": "textseg/internal/charprops/gentable/generate.go", "symbols": ["BuildRawPropertyTree"]}]}
{"id": "C53", "title": "What a State stands for", "statement": "After any text the state machine, whether restarted at every split or used on as documented, is in one of its six states, and the states for emoji sequences and for Indic conjuncts hold exactly when the characters so far end as the comments on these constants say (Extended_Pictographic Extend*, the same and ZWJ, InCB=Consonant InCB=Extend*, InCB=Consonant followed by InCB=Extend and InCB=Linker with at least one Linker). StateAwaitEmojiFlag: with restarts, exactly when the text ends in an odd number of regional indicators; used on, that only if no such sequence is under way before them, and otherwise an even number, not zero. Refuted: the comment on StateAwaitEmojiFlag (the previous character is a regional indicator and its predecessor is not), for both ways.", "quantifier": "all texts of Unicode characters", "why_tests_cant": "all texts, of any length; no test looks at states", "anchors": [{"file": "textseg/internal/machine/state.go", "symbols": ["State", "Begin", "State.Transition", "StateBase", "StateAwaitEmojiFlag", "StateGB11BeforeZWJ", "StateGB11AfterZWJ", "StateGB9cConsonant", "StateGB9cLinker"]}]}
{"id": "C54", "title": "Size of the tables", "statement": "The emitted tables are compact: they hold one property block of 64 values for each of the two ASCII blocks, one per different content of a block of 64 code points needed by three-byte sequences that ASCII does not have, and one per different content needed by two- or four-byte sequences; and an index block for the root, one per different block of 4096 values, and at most one per different block of 262144 values. The Unicode files in the repository need 236 of the 256 property blocks that indices of one byte allow, and 25 index blocks.", "quantifier": "all assignment sequences for which tables are emitted", "why_tests_cant": "all assignment sequences; no test looks at the sizes, and how near to failing the generator is cannot be seen by running it", "anchors": [{"file": "textseg/internal/charprops/gentable/generate.go", "symbols": ["Compact", "buildCompactedBlocks"]}, {"file": "textseg/internal/charprops/property_table_raw.go", "symbols": ["lookupIndices", "lookupProps"]}]}
{"id": "C55", "title": "The regular expression of UAX #29", "statement": "The tokens of every text are the successive longest matches of the regular expression for extended grapheme clusters in UAX #29 (Tables 1b and 1c: crlf, Control, precore* core postcore*, with Hangul syllables, flags, emoji sequences and conjuncts as cores). On arbitrary bytes the same holds, each byte that belongs to no UTF-8 sequence being a control character.", "quantifier": "all texts; all byte sequences", "why_tests_cant": "all texts; the code follows the pairwise rules and nothing in the repository mentions the regular expression", "anchors": [{"file": "textseg/grapheme_clusters.go", "symbols": ["ScanGraphemeClusters"]}, {"file": "textseg/internal/machine/state.go", "symbols": ["State.Transition"]}]}
{"id": "C56", "title": "Edits stay local", "statement": "From any character on that is not Extend, ZWJ or a regional indicator, the boundaries after that character do not depend on what comes before it: replacing the beginning of a text, or starting in the middle, changes no boundary after that character. A regional indicator is such a place too when an even number of them, not preceded by another, comes before. None of the three classes can be left out.", "quantifier": "all byte sequences before and after the place", "why_tests_cant": "all texts and all edits; the machine carries state from one character to the next, and tests do not compare two texts with a common end", "anchors": [{"file": "textseg/grapheme_clusters.go", "symbols": ["ScanGraphemeClusters"]}, {"file": "textseg/internal/machine/state.go", "symbols": ["State.Transition"]}]}
{"id": "C57", "title": "Numbers of clusters", "statement": "The number of clusters of a ++ b is at most the sum of the numbers for a and for b, for all bytes, and, when b does not begin with a continuation byte, at least that sum minus two. A beginning of a text has no more clusters than the text, and the rest at most one more than the text.", "quantifier": "all byte sequences a, b", "why_tests_cant": "all pairs of byte sequences; counts of parts and wholes are compared by no test", "anchors": [{"file": "textseg/grapheme_clusters.go", "symbols": ["ScanGraphemeClusters"]}]}
{"id": "C58", "title": "Hangul syllables, precomposed or not", "statement": "Decomposing the Hangul syllables of a text into jamo (the arithmetic decomposition of the Unicode Standard) decomposes its clusters: no boundary is gained, lost or moved. Hence two texts that differ only in which syllables are precomposed have corresponding clusters.", "quantifier": "all texts, all sets of syllables written either way", "why_tests_cant": "all 11172 syllables in all contexts, and pairs of texts", "anchors": [{"file": "textseg/grapheme_clusters.go", "symbols": ["ScanGraphemeClusters"]}, {"file": "textseg/internal/machine/state.go", "symbols": ["State.Transition"]}, {"file": "textseg/internal/charprops/property_table_raw.go", "symbols": ["lookupIndices", "lookupProps"]}]}
{"id": "C59", "title": "One version of go-textseg per program", "statement": "The README says that build tags ensure that only one version of go-textseg is compiled into a program that uses autoversion. That holds for every toolchain except 1.27, the one that selects v17: there version_agnostic.go pulls in v15 as well.", "quantifier": "all Go minor releases", "why_tests_cant": "tests run under a single toolchain, and what is compiled in is not observable from a test", "anchors": [{"file": "autoversion/textseg/version_agnostic.go", "symbols": ["realImpl"]}, {"file": "autoversion/textseg/unicode17.go", "symbols": ["v17"]}, {"file": "README.md", "symbols": ["IMPORTANT"]}]}
{"id": "C60", "title": "Exactly which clusters a bufio.Scanner delivers", "statement": "To tell a cluster of characters, the scanner has to see the cluster and the character after it (as many bytes as that character's first byte announces), or one byte more than the cluster if nothing follows; to tell an invalid byte, the bytes it announces. A scanner whose buffer may grow to a given capacity delivers a cluster exactly if that many bytes, or all of the rest with a byte to spare, fit the capacity: if all clusters fit, all are delivered and then the reader's own error; otherwise those before the first that does not, and then ErrTooLong, after which a caller who goes on is given the clusters of the part the buffer holds, ErrTooLong, and nothing more. Only when the rest of the input has exactly the size of the buffer does it depend on how the reader reports the end.", "quantifier": "all inputs, all reader schedules, all buffers and limits (at least one byte)", "why_tests_cant": "all inputs, all capacities and all schedules: the exact limit moves with the cluster and the character after it", "anchors": [{"file": "textseg/grapheme_clusters.go", "symbols": ["ScanGraphemeClusters"]}, {"file": "textseg/internal/charprops/property_table.go", "symbols": ["LookupFirstChar"]}]}
{"id": "C61", "title": "Work of reading with a bufio.Scanner (linear: refuted)", "statement": "Whatever the reader and its schedule, a scanning loop that ends without ErrTooLong makes at most 2n + r(m+3) character lookups, where n is the number of bytes delivered as tokens, m the length of the longest token and r how often the Scanner turned to its reader, and r is at most n + 1; with ErrTooLong the same with the capacity for m and r + 1 for r. The claim that the work is linear in the input, as it is for one call after the other on the whole text (C37), is refuted: a cluster of 2n + 1 bytes read one byte at a time takes at least n*n lookups.", "quantifier": "all readers and schedules, all inputs, all buffers and limits", "why_tests_cant": "a bound for all inputs and all schedules; growth with the size of the input can only be sampled by tests", "anchors": [{"file": "textseg/grapheme_clusters.go", "symbols": ["ScanGraphemeClusters"]}]}
{"id": "C62", "title": "Tokens written out with separators", "statement": "If the clusters of a text are written out with a character of class Control (NUL, U+200B, ...) between each two of them, splitting the result gives exactly the clusters and the separators again, so the clusters can be recovered. With a line feed between them this holds unless a cluster is a lone carriage return, and that condition is needed.", "quantifier": "all byte strings, all control characters", "why_tests_cant": "all texts, including malformed ones; a separator could in principle join a neighbour of any kind", "anchors": [{"file": "textseg/grapheme_clusters.go", "symbols": ["ScanGraphemeClusters"]}, {"file": "textseg/internal/charprops/property_table.go", "symbols": ["LookupFirstChar"]}]}
{"id": "C63", "title": "Go's runes, and replacing invalid bytes by U+FFFD", "statement": "Go's conversion of a string to runes and back reads each encoding of a character as that character and replaces every other byte by U+FFFD. In any data, also malformed data, every cluster is a whole number of these runes, so there are at most as many clusters as runes. Between two characters that are kept, there is a cluster boundary after the conversion exactly if there was one before; text in UTF-8 does not change. Unless the data has a complete sequence that encodes no character (overlong, surrogate, above U+10FFFF), every boundary after the conversion was a boundary before; that condition is needed.", "quantifier": "all byte strings", "why_tests_cant": "all byte strings: the replaced bytes may lie anywhere in the text, also inside clusters that depend on a long context", "anchors": [{"file": "textseg/grapheme_clusters.go", "symbols": ["ScanGraphemeClusters"]}, {"file": "textseg/internal/charprops/property_table.go", "symbols": ["LookupFirstChar"]}]}
{"id": "C64", "title": "Clusters put together in another order (reversal: refuted)", "statement": "A list of clusters, none of which begins with a continuation byte, put together in the given order splits into exactly these clusters if and only if any two neighbours, put together, split into the two. So the clusters of a text can be written in reverse order exactly if any two neighbours can be exchanged, and that is not always so (LF before CR, regional indicators): the claim that reversing by clusters always gives the reversed clusters is refuted. Clusters of text that begin with a character of Grapheme_Cluster_Break Other or Control, not pictographic and not an Indic consonant, and that do not end with a Prepend character, can be put together in any order.", "quantifier": "all lists of clusters of any length, all texts", "why_tests_cant": "all lists: that pairs decide needs that no cluster boundary depends on what is before the previous boundary", "anchors": [{"file": "textseg/grapheme_clusters.go", "symbols": ["ScanGraphemeClusters"]}, {"file": "textseg/internal/machine/state.go", "symbols": ["State.Transition"]}]}
{"id": "C65", "title": "What the file-driven tests of the tables establish", "statement": "Each of the three tests of the tables that read a UCD file (Grapheme_Cluster_Break, Extended_Pictographic, Indic_Conjunct_Break), run on any tables and any well-formed file, read in any portions, has exactly one outcome, and passes exactly if looking up each character listed by the file finds the listed value and the length of the character (surrogates count as U+FFFD). The tests pass for the committed tables and files. They say nothing about characters that the files do not list: there are tables for which all three pass and in which 'a' is a Prepend character. The tests' comment 'should always be true if the generator is correct' holds for the emoji test whatever the files say; for the other two it holds exactly if no character is given two different values (or a Grapheme_Cluster_Break value and Extended_Pictographic).", "quantifier": "all tables, all well-formed files of any length, all readers", "why_tests_cant": "it is a statement about what tests can and cannot detect, over all tables and files", "anchors": [{"file": "textseg/internal/charprops/property_table_test.go", "symbols": ["TestLookupFirstChar_graphemeBreakProperty", "TestLookupFirstChar_emojiExtendedPictographic", "TestLookupFirstChar_indicConjunctBreakProperty"]}, {"file": "textseg/internal/charprops/property_table.go", "symbols": ["LookupFirstChar"]}, {"file": "textseg/internal/charprops/ucdparse/ucd_scan.go", "symbols": ["Scanner.NextEntry"]}]}
{"id": "C66", "title": "Writing to tokens", "statement": "A token is a part of the memory it was cut from. (a) A caller of a bufio.Scanner that splits with ScanGraphemeClusters may overwrite the bytes of a token until it calls Scan again: for every reader that writes the bytes it reports, it gets the same tokens and the same error as a caller that only reads, and it gets to the end whatever it writes. With a Scanner that has its default buffer and at most 2048 bytes, all tokens received so far may be overwritten at any time. (b) A caller that cuts up a slice with repeated calls may store whatever it likes in the tokens, or anywhere but in the rest of the data: it gets the tokens of the original data. Refuted: that appending to a token is harmless (it overwrites the following text, with a Scanner and with a slice), and that tokens received before the last call of Scan may be written to (with more input or a smaller buffer they lie over text that is still to be split).", "quantifier": "all inputs, all readers, all buffers, all histories of writes by the caller", "why_tests_cant": "the caller's writes are arbitrary and interleave with the shifting and growing of the buffer in all histories", "anchors": [{"file": "textseg/grapheme_clusters.go", "symbols": ["ScanGraphemeClusters"]}, {"file": "README.md", "symbols": ["Usage"]}]}
{"id": "C67", "title": "Other versions of the Unicode data", "statement": "Take any three data files from which the generator writes tables, and the library compiled with these tables. If by the lines of the files every character has a combination of properties that can be followed (pictographs have no other property; InCB consonants are letters, Hangul jamo or spacing marks; InCB linkers and extenders are Extend, ZWJ or SpacingMark), then the tokens of any bytes are the UAX #29 clusters by these properties. If the files also have characters of six basic classes (as all versions with InCB do), this is exact: a character with any other combination is in a valid text of at most four characters that is cut wrongly. Whatever the values in the tables, calls never panic, give non-empty initial parts of the data, never take a token back, and repeated calls divide all data into tokens. The committed tables are one case: all combinations of Unicode 17 can be followed.", "quantifier": "all data files and tables written from them, all byte sequences", "why_tests_cant": "the conformance tests only run the committed version; the data of other versions and all texts over them are infinite", "anchors": [{"file": "textseg/grapheme_clusters.go", "symbols": ["ScanGraphemeClusters"]}, {"file": "textseg/internal/machine/state.go", "symbols": ["Transition", "nextState"]}, {"file": "textseg/internal/charprops/generate.go", "symbols": ["main"]}, {"file": "textseg/internal/charprops/gentable/generate.go", "symbols": ["BuildRawPropertyTree"]}]}
{"id": "C68", "title": "The same text spelled differently", "statement": "If parts of a text are spelled differently - the marks (Grapheme_Cluster_Break=Extend) of a run in another order, a letter with its accents as one character or as a letter of the same class followed by marks that Indic conjuncts see through, a Hangul syllable as its jamo, a vowel jamo as several, a character as another of the same class - any number of times and in either direction, the two texts have as many tokens, and the tokens are pairwise such spellings of each other; reordering marks keeps the byte lengths of all tokens. The conditions are needed: ZWJ among the marks, ZWNJ between consonants, and accents after Prepend, regional indicators or Hangul letters change the clusters.", "quantifier": "all texts of Unicode characters, all such changes of spelling", "why_tests_cant": "infinitely many texts, parts and orders of marks", "anchors": [{"file": "textseg/grapheme_clusters.go", "symbols": ["ScanGraphemeClusters"]}, {"file": "textseg/internal/machine/state.go", "symbols": ["Transition", "nextState"]}, {"file": "textseg/internal/charprops/property_table_raw.go", "symbols": ["propertyTable"]}]}
{"id": "C69", "title": "Canonically equivalent texts (refuted for U+21AE)", "statement": "Canonically equivalent texts have corresponding tokens: as many, pairwise canonically equivalent, provided neither contains U+21AE; and then normalising a text to NFD and splitting it is the same as splitting it and normalising the tokens. (Canonical decompositions and combining classes of the characters of Unicode 14.) Refuted without the proviso: U+21AE and its decomposition U+2194 U+0338 are cut differently before ZWJ and an emoji, as only U+2194 is pictographic.", "quantifier": "all pairs of canonically equivalent texts", "why_tests_cant": "infinitely many texts; the conformance test has no pairs of equivalent texts", "anchors": [{"file": "textseg/grapheme_clusters.go", "symbols": ["ScanGraphemeClusters"]}, {"file": "textseg/internal/machine/state.go", "symbols": ["Transition", "nextState"]}, {"file": "textseg/internal/charprops/property_table_raw.go", "symbols": ["propertyTable"]}]}
{"id": "C70", "title": "Truncating a text", "statement": "The first tokens that fit into n bytes are the longest beginning of the data of at most n bytes that does not cut a cluster, consist of whole characters, and are the tokens of that beginning taken alone. Only the first n+4 bytes have to be looked at (n+3 are not always enough), so a prefix of an endless input can be truncated; truncating to n and then to m is truncating to the smaller. A mark such as U+2026 (Other, not pictographic, no consonant) put after it is a token of its own, unless the beginning ends in a Prepend character.", "quantifier": "all data, limits n and m, continuations of the data, marks", "why_tests_cant": "infinitely many data, limits and continuations", "anchors": [{"file": "textseg/grapheme_clusters.go", "symbols": ["ScanGraphemeClusters"]}, {"file": "textseg/internal/charprops/property_table.go", "symbols": ["LookupFirstChar"]}]}
{"id": "C71", "title": "Machine-word ints", "statement": "With Go's int as a word of w bits that wraps around, for every w >= 15 (Go: 32 or 64) and all data whose length such an int can hold, every call gives the same advance, token and error as with unbounded numbers: no index computation or count overflows, the advance lies between 0 and len(data), and repeated calls give the same tokens.", "quantifier": "all word widths from 15 bits, all data up to the largest int in length, both values of atEOF, all tables of bytes", "why_tests_cant": "lengths up to 2^63-1 cannot be allocated, and tests run with one width", "anchors": [{"file": "textseg/grapheme_clusters.go", "symbols": ["ScanGraphemeClusters"]}, {"file": "textseg/internal/charprops/property_table.go", "symbols": ["LookupFirstChar"]}]}
{"id": "C72", "title": "How far back a boundary depends", "statement": "No number of bytes or characters before a place is enough to decide whether it is a token boundary: for every k and each of Extend, ZWJ and Regional_Indicator there are two texts with the same k characters of that class before the place and the same text after it, one with and one without a boundary there; so no function of the last k bytes before a place and of everything after it finds the boundaries. But a finite memory is enough: some automaton with finitely many states, reading the characters once from the front, decides every boundary before the next character is passed.", "quantifier": "all k, all functions of a window, all texts", "why_tests_cant": "ranges over all window sizes and all functions", "anchors": [{"file": "textseg/grapheme_clusters.go", "symbols": ["ScanGraphemeClusters"]}, {"file": "textseg/internal/machine/state.go", "symbols": ["Transition", "nextState"]}]}
{"id": "C73", "title": "The source text means what the model says", "statement": "The files of the library (textseg/grapheme_clusters.go, internal/machine/state.go, internal/charprops/property_table.go, properties.go, property_table_raw.go, and autoversion/textseg/unicode17.go), byte for byte as committed, parse as Go and, executed by the rules of the language with ints of any width from 16 bits, compute for all arguments what the other properties are about: ScanGraphemeClusters, called from the package or through autoversion, returns the advance, token and nil error of the model for every data that an int can count and both atEOF; so do LookupFirstChar, Begin, Transition (for every state, with its panic), GCBProperty, InCBProperty, IsAnyControl, MakeCharProperties, the three Lookup functions for every name and the three String methods for every value.", "quantifier": "all word widths from 16 bits, all arguments of every function, any sufficient fuel and call depth", "why_tests_cant": "it is about every argument, and about the text of the program rather than a translation of it", "anchors": [{"file": "textseg/grapheme_clusters.go", "symbols": ["ScanGraphemeClusters"]}, {"file": "textseg/internal/machine/state.go", "symbols": ["Begin", "Transition", "nextState"]}, {"file": "textseg/internal/charprops/property_table.go", "symbols": ["LookupFirstChar"]}, {"file": "textseg/internal/charprops/properties.go", "symbols": ["MakeCharProperties", "LookupGCBProperty", "String", "IsAnyControl"]}, {"file": "autoversion/textseg/unicode17.go", "symbols": ["ScanGraphemeClusters"]}]}
{"id": "C74", "title": "The source text itself conforms", "statement": "Whoever runs the committed source text by the rules of the language, with ints of any width from 16 bits and data an int can count, gets the clusters of UAX #29 in Unicode 17: for every text, calling ScanGraphemeClusters (of textseg, or of autoversion) until nothing is left gives exactly the extended grapheme clusters of the text, and nothing else; for arbitrary bytes, those of the items the bytes read as; for data that arrives in chunks, however cut and whenever tokens are taken, the same tokens as for the whole. What a call answers does not depend on how long the execution may take: more fuel or depth never changes an answer, and there is at most one.", "quantifier": "all word widths from 16 bits, both exported functions, all texts, all byte strings, all chunkings and schedules of takes, all amounts of fuel and depth", "why_tests_cant": "tests run the program on some texts; this is about every text and every chunking, and about the text of the program rather than a translation of it", "anchors": [{"file": "textseg/grapheme_clusters.go", "symbols": ["ScanGraphemeClusters"]}, {"file": "textseg/internal/machine/state.go", "symbols": ["Transition"]}, {"file": "textseg/internal/charprops/property_table_raw.go", "symbols": ["lookupIndices", "lookupProps"]}, {"file": "autoversion/textseg/unicode17.go", "symbols": ["ScanGraphemeClusters"]}]}
{"id": "C75", "title": "ucdparse: the source text means what the model says", "statement": "ucd_scan.go and testdata_scan.go, byte for byte as committed, parse as Go and, executed by the rules of the language over bufio, bytes, strconv and utf8, do what the properties about parsing say: NewScanner and NewTestDataScanner start a line scanner on the reader they are given; Scanner.NextEntry and TestDataScanner.NextEntry, for every reader, in every state of the line scanner, return exactly the entries and errors of the model (and run on without answer exactly when it does), leaving the reader and the line scanner where the model leaves them; FirstField returns the first field, and AllFields an iterator that yields the fields of the model to any consumer, also one that stops early and one that ranges again.", "quantifier": "all readers and their states, all states of the line scanner, all entries, all consumers of the iterator, any sufficient fuel and call depth", "why_tests_cant": "it is about every reader and every input, and about the text of the program rather than a translation of it", "anchors": [{"file": "textseg/internal/charprops/ucdparse/ucd_scan.go", "symbols": ["NewScanner", "Scanner.NextEntry", "Entry.FirstField", "Entry.AllFields", "Fields.Strings"]}, {"file": "textseg/internal/charprops/ucdparse/testdata_scan.go", "symbols": ["NewTestDataScanner", "TestDataScanner.NextEntry"]}]}
{"id": "C76", "title": "ucdparse, run from its source text, reads the files as their format says", "statement": "A session with the committed source text of ucdparse (NewScanner, then NextEntry again and again, each executed by the rules of the language for long enough) returns, for every reader that delivers the file however it cuts it up, the entries of the lines that are not ignored, in order: code points, exclusive ends, fields as FirstField and a range over AllFields give them when executed too; errors for malformed lines; and at the end the error of the reader, as often as one asks. For test files the text and the segments of every line. A range over the fields that is left early and taken up again goes on with the value it was left at. There is only one such session.", "quantifier": "all readers (schedules of short, empty and failing reads), all files with lines below 64 KiB, all numbers of calls, all points at which a range is left", "why_tests_cant": "tests read some files in one go; this is about every file and every schedule, and about the text of the program rather than a translation of it", "anchors": [{"file": "textseg/internal/charprops/ucdparse/ucd_scan.go", "symbols": ["NewScanner", "Scanner.NextEntry", "Entry.FirstField", "Entry.AllFields", "Fields.Strings"]}, {"file": "textseg/internal/charprops/ucdparse/testdata_scan.go", "symbols": ["NewTestDataScanner", "TestDataScanner.NextEntry"]}]}
{"id": "C77", "title": "The library run from its source text, under bufio.Scanner, delivers the clusters of UAX #29", "statement": "A bufio.Scanner whose split function is ScanGraphemeClusters executed from the committed source files (of textseg or of autoversion/textseg), over any reader that delivers a text in pieces of any sizes, yields exactly the extended grapheme clusters of the text and then Err() is nil, or the reader's own error; for arbitrary bytes, those of the bytes as read with one U+FFFD per ill-formed byte. A cluster that exceeds the scanner's capacity is reported as ErrTooLong after the clusters before it, never split. Over readers of any behaviour, however often Scan is called, every call returns, tokens are not empty and fit, and the errors are only those of bufio and of the reader. Every entry that ucdparse, executed from its source too, reads from the published GraphemeBreakTest.txt passes what the test programs check.", "quantifier": "all texts and byte strings, all readers (schedules of short, empty and failing reads), all buffers and maxima, all histories of calls, all int widths that can count the capacity", "why_tests_cant": "the tests run one reader that gives one byte at a time, on the published cases; this is about every text, reader, buffer and history, and about the program text rather than a translation of it", "anchors": [{"file": "textseg/grapheme_clusters.go", "symbols": ["ScanGraphemeClusters"]}, {"file": "autoversion/textseg/unicode17.go", "symbols": ["ScanGraphemeClusters"]}, {"file": "textseg/grapheme_clusters_test.go", "symbols": ["TestScanGraphemeClusters", "TestScanGraphemeClusters_partial"]}, {"file": "textseg/all_tokens_test.go", "symbols": ["allTokens"]}]}
{"id": "C78", "title": "The library compiled with regenerated tables has the properties of the data files", "statement": "Whatever three data files the generator is given and however they are read: if it writes a property_table_raw.go, that text is a Go file declaring exactly two arrays, those of the tree it built, and the library whose sources contain this file instead of the committed one looks up every character as the value the lines of the files assign to it, consuming exactly the character's bytes; every other byte string is looked up in these tables as well. Run on the data files of the repository, the generator leaves a library of which every function, executed from its source, returns for all arguments what it returned before.", "quantifier": "all trees; all data files, reading errors and schedules of the readers; all byte strings and characters; all int widths from 15 bits; in the last sentence all functions and arguments", "why_tests_cant": "a test compiles one generated file, from one set of data files; this is about the file written for any data, as the compiler would read it back", "anchors": [{"file": "textseg/internal/charprops/generate.go", "symbols": ["main"]}, {"file": "textseg/internal/charprops/property_table.go", "symbols": ["LookupFirstChar"]}, {"file": "textseg/internal/charprops/property_table_raw.go", "symbols": ["lookupIndices", "lookupProps"]}]}
