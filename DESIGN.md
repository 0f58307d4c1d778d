# Formal model of go-textseg in Rocq (Coq 8.16.1)

The subject is apparentlymart/go-textseg at the commit in /repo.  This file says
what is modelled, what is not, what has to be trusted, and for every property
of `properties.jsonl` how it is stated and proved.

## Layout (rocq/theories, logical prefix Verif)

| files | role |
|---|---|
| `Spec/` | the *specification*; nothing here comes from the code. `Utf8` (encoding of scalar values, structurally complete sequences), `Classes`, `UAX29` (the rules GB1-GB999 as conditions on positions), `ClusterRegex` (the regular expression of UAX #29), `Hangul` (decomposition of syllables), `Segmentation` (items of arbitrary bytes, what a segmentation is), `UcdRanges` (Unicode 17 values as ranges), `PropNames`, `Readers` (what a reader that delivers given bytes may do), `Assignments` (histories of assignments for the generator), `UcdFile` (formats of the data files: lines, blanks, hexadecimal numbers, data lines, test lines), `Generation` (which assignments the lines ask for), `AnyFiles` (the same for any files and failures), `Histories` (what the machine's states stand for), `Limits` (how many different blocks of values there are), `Versions` (data of other versions), `Respelling`, `Canonical` (NFD), `Truncation` |
| `Data/` | generated: the two arrays of `property_table_raw.go`, and byte-exact copies of the four data files and of the Go files of the library; `Canonical`: decompositions and combining classes from Python's unicodedata (Unicode 14), not from /repo, used by C69 only |
| `Model/` | the model of the code, function by function; every definition cites file and lines |
| `Proofs/` | lemmas |
| `Properties/` | the property theorems `Cnn_*`, with a concrete non-trivial case beside each; every file ends with `Print Assumptions` of all of them |

`tools/gen.py` reads /repo and writes `Data/` and `Spec/UcdRanges.v` (committed).
`tools/canonical.py` writes `Data/Canonical.v`.
`tools/manifest.py` collects the theorem names into MANIFEST.json.

## What is modelled

| code | model |
|---|---|
| textseg/grapheme_clusters.go (all of it) | `Model/Scan.v`; over arbitrary tables (the code after regenerating): `Model/OtherTables.v`; with explicit memory, slices with capacity and single byte reads: `Model/Memory.v`; with int as a machine word (and property_table.go): `Model/WordInt.v`; from its text: see below |
| internal/machine/state.go (all of it) | `Model/Machine.v`; the state after a text: `Model/States.v` |
| internal/charprops/property_table.go, property_table_raw.go | `Model/Lookup.v`, `Data/TableRaw.v` |
| internal/charprops/properties.go (constants, packing, predicates, names, String methods) | `Model/CharProps.v`, `Model/PropNames.v` |
| the text of grapheme_clusters.go, state.go, property_table.go, property_table_raw.go, properties.go, autoversion/textseg/unicode17.go | `Model/GoLibrary.v`: parsed and executed (C73) with the syntax `Model/GoSyntax.v` and semantics `Model/GoSemantics.v` of the part of Go they use; fmt.Sprintf with `%s`, `%02x` |
| internal/charprops/gentable/generate.go, property_tree.go | `Model/GenTable.v` (tree, Set, BitwiseOr, Compact), `Model/BuildTree.v` (BuildRawPropertyTree) |
| internal/charprops/generate.go (main) | `Model/BuildTree.v`: the tables and the uint8 check; `Model/Emit.v`: the text of the generated file before gofmt; `Model/GenMain.v`: main as a process that opens, truncates and writes files, with its exit status; `Model/GoRegenerated.v`: the library with that text in it, executed |
| internal/charprops/ucdparse/ucd_scan.go, testdata_scan.go | `Model/UcdParse.v`; Entry.Fields as a slice of the scanner's memory: `Model/EntryMemory.v` |
| the text of ucd_scan.go, testdata_scan.go | `Model/UcdSourceUnit.v`: parsed and executed (C75) with the syntax `Model/UcdSyntax.v` and semantics `Model/UcdSemantics.v`; bufio, bytes, strconv, utf8, fmt.Errorf are those of `Model/Bufio.v`, `Model/UcdParse.v` |
| internal/charprops/property_table_test.go 74-193 (the tests that read the files) | `Model/TableTests.v` |
| autoversion/go.mod, autoversion/textseg/unicode15.go, unicode17.go, version_agnostic.go | `Model/AutoVersion.v` |
| callers' loops (one-shot, chunked; textseg/all_tokens_test.go) | `Model/Drivers.v`, `Model/Bufio.v`; with counters: `Model/Work.v`; with callers that write to memory: `Model/Writing.v` |
| Go standard library, from its published source: bufio.Scanner, bufio.ScanLines, bytes.Reader, bytes.Cut/Split/TrimSpace, strconv.ParseUint/ParseInt (base 16, 32 bits), utf8.EncodeRune | `Model/Bufio.v`, `Model/UcdParse.v`, `Model/GenTable.v` |

Not modelled: the rendering of error messages (the model has which error it is,
and the quoted text and cause that its message shows) and texts of panics,
what `go/format` does (an arbitrary function in `Model/GenMain.v`), what is written to standard error, v15 (another module, a parameter
of `Model/AutoVersion.v`), the other test functions, and the performance of anything except the number of character
lookups (C37).

### Modelling decisions

* A byte is `Coq.Init.Byte.byte` (256 constructors, no side conditions); byte
  arithmetic is in `N`.  Slices whose aliasing does not matter are lists.
* Panics are values: `res A = Ret a | Panic why`.  Every index and slice
  expression is checked in the model.  Unbounded `for` loops run on fuel whose
  exhaustion is a `Panic` of its own (so "never panics" includes termination),
  or are big-step relations together with a proof that exactly one derivation
  exists (NextEntry, BuildRawPropertyTree).
* `uint8`, `uint16`, `int32` wrap-around is written out where the generator and
  the parser compute with it.  `int` is unbounded in most files: every int is bounded
  by a slice length, except in bufio.Scanner, where the guard on maxInt is modelled.
  C71 proves this for the split function and the lookup.
* `LookupFirstChar` is modelled over arbitrary tables; `committed` are the
  committed ones.
* bufio.Scanner keeps all its buffers, so that tokens are slices that may be
  overwritten later (C24, C39).  Readers are arbitrary functions; the class for
  which the positive theorems hold is `Spec/Readers.v: delivers`, any
  portioning, any scratch use of the space, up to 100 empty reads in a row.
* For C27 a call is a tree of single byte reads, so that other goroutines can
  write between any two reads.
* Go maps are association lists (the generator never iterates over one).

## Trusted base

* Coq's kernel (8.16.1), including `vm_compute`, which is used for finite checks
  (table contents, data files); `coqchk` re-checks them without the VM.
* `Print Assumptions` of every theorem: "Closed under the global context": no
  axioms at all.  (`coqchk` also lists the axioms of `Coq.ssr.ssrunder`, a file
  of the standard library that gets loaded; no theorem depends on them.)
* That the model says what the code does.  It was written by hand, from the
  text of /repo; the model of the standard library was written from knowledge
  of its source, which is not in /repo.  For everything that is compiled into a
  program that uses the library (all files but the generator's and tests) C73
  reduces this to less: that the strings in `Data/` are the files (`tools/gen.py`
  copies them), and that `Model/GoSyntax.v` and `Model/GoSemantics.v` read and run
  this part of Go as the language specification says.  C75 does the same for
  ucdparse, with `Model/UcdSyntax.v` and `Model/UcdSemantics.v`.  What is outside the subset
  has no parse or no answer (a `Panic` of its own), so it cannot be misread
  silently.
* `tools/gen.py`: that `Data/*.v` are copies of the files.  `Spec/UcdRanges.v`
  is *not* trusted: C30_grapheme_break_property etc. prove that it is what
  the data files, read by the specification of their format, say.  The arrays in
  `Data/TableRaw.v` are likewise checked against the bytes of
  property_table_raw.go (C45).
* The specification of UAX #29 (`Spec/UAX29.v`, about 80 lines) and of UTF-8.

## Properties: how stated, how proved

| id | method | theorems in |
|---|---|---|
| C01 | `scan` always returns: induction on the loop; table indices in bounds by a check of every entry | Splitting |
| C02 C03 | invariant of the loop: count + len(remain) = len(data) | Splitting |
| C04 | strong induction on the length of the rest | Splitting |
| C05 | stability of LookupFirstChar under extension, loop induction | Splitting |
| C06 | C02, C03, C05 for any caller that follows the protocol; induction over chunks | Splitting |
| C07 C41 | exact condition under which a call asks for more: what remains after the cluster is an unfinished sequence | Splitting |
| C08 C09 | refinement: the loop is the greedy segmentation of decoded items; the machine's state summarises the left context (invariant); uniqueness of the segmentation | Unicode |
| C10-C12 | decoding of arbitrary bytes into items; classes of non-canonical sequences from the tables | Unicode |
| C13 | the table is compared with the ranges along every byte path by computation, lifted to all characters | Lookup |
| C14 | case analysis on lead byte and continuation bytes; the documented error contract is refuted | Lookup |
| C15-C20, C38 | from C09 through the UAX #29 specification, stated on positions | Unicode |
| C21 C22 | C09 and locality of the rules | Unicode |
| C23 C25 C26 | invariant of the Scanner: tokens ++ buffered ++ unread = input; C05, C07 | Bufio |
| C24 | all Scanner guards unreachable whatever the reader does | Bufio |
| C27 | read-tree semantics over arbitrary sequences of memories that agree on data | Memory |
| C28 | refinement of the mutable tree to an abstract map, compaction preserves lookups | Generator |
| C29 | exact condition for success, in both directions, and which panic otherwise; `Spec/Limits.v` counts blocks for the width of the indices | Generator, Limits |
| C30 | C44 for the embedded files; parse and generation by computation | Reproduce |
| C31 C32 | the parser against the format specification, for whole files and every read schedule; every file is covered (each line has exactly one meaning) | Parsing |
| C33 C34 | finite domain (uint8) by computation; strings by case analysis | Lookup |
| C35 C42 | C08 on the machine alone; the use described in the doc comments is refuted | Lookup |
| C36 | build constraints as boolean functions of the Go release; arithmetic | AutoVersion |
| C37 | counting version of the loop, induction | Splitting |
| C39 | Scanner with buffer memory: true up to 2049 bytes, counterexample of 2050; over any reader an invariant (what has been read stays where it is) up to 2048, with a counterexample of 2049 | Bufio |
| C40 | refuted by LF, for every continuation | Splitting |
| C43 | iterator with its captured variable; the repeated use is refuted | Parsing |
| C44 | loops over the three files, determinism, C28, C31 | Reproduce |
| C45 | lexer for the Go text written, induction over rows; the committed file lexed by computation | Emission |
| C46 | the file read by a checked decision procedure for the format; tokens by computation; C08 and injectivity of UTF-8 for the specification, C32 and C39 for the schedules | Conformance |
| C47 | the rules look at one character to the right; segmentations with the same cuts are equal | Editing |
| C48 | every joining rule but GB12/13 is monotone in the left context | Editing |
| C49 | Fields as a slice of the scanner's buffers; a result is looked at with the memory of that moment. Right after the call: slice operations commute with looking; small files: nothing is moved, reads write beyond what was read; counterexamples by computation | Entries |
| C50 | `Spec/TestReading.v` gives every line a reading; the parser's result is a function of the trimmed texts between the signs, which do not depend on the blanks around the line | TestData |
| C51 | `Spec/AnyFiles.v` says what any files ask for; C31 for every line, the loops over the files, C28, C29 | AnyFiles |
| C52 | a run is a list of file contents, one for each step that changes it; case analysis of main, C45, C51; the two refutations show runs of the model | GenMain |
| C53 | `Spec/Histories.v`: the documented meanings as conditions on the characters so far; one step of the machine checked for all states and classes, induction over the text | States |
| C54 | invariant of the compaction: no two blocks equal, every block linked from another, entries below the number of blocks; the contents of the blocks counted per level (`Proofs/GenCount.v`) | Limits |
| C55 | `Spec/ClusterRegex.v`: the regular expression as a language of class sequences; every prefix of a match that is not a match joins on, every match is joined inside (`Proofs/RegexFacts.v`); longest match iff next boundary | Regex |
| C56 | the state after a character that is none of the three classes is a function of that character (`Proofs/BoundaryFacts.v: alike`) | Locality |
| C57 | counting boundaries left to right with and without what comes before; a sequence cut in two reads as single bytes | Locality |
| C58 | `Spec/Hangul.v`: the arithmetic decomposition; the classes of all 11172 syllables and their parts checked; to the rules a decomposed syllable looks like the syllable from both sides, and has no boundary inside | Hangul |
| C59 | the imports of the selected files; refuted at one toolchain, exact otherwise | AutoVersion |
| C60 | `Spec/Room.v`: the bytes a cluster demands; a beginning of the text yields the token exactly if it has them (`Proofs/RoomFacts.v: demand_exact`); the loop of Scan with what it has seen when it answers (`BufioFacts: Scan_input_full`); induction on the tokens | Room |
| C61 | `Model/Work.v`: the Scan loop with counters; a call that asks for more holds fewer bytes than the token it belongs to plus four; each refill brings a byte or the end. Lower bound: all beginnings of "e" with accents are unfinished and cost a lookup per character | Work |
| C62 | `Spec/Runes.v: separated`; induction on the tokens with C15 (a boundary on each side of the separator), C21 (a token alone is a token) and C22 | Runes |
| C63 | `Spec/Runes.v: converts`; the items read are related to the characters they are converted to, and look alike from the right (`BoundaryFacts: alike`) at every kept character | Runes |
| C64 | induction on the list: C47 (appending changes at most the last token; a boundary divides a text) and C21; the classes of C64_any_order split in every context | Rearrange |
| C65 | the calls of NextEntry on a file are known from C31; induction on the lines; the committed tables and a wrong table by evaluating the lookups of all listed characters; C44 for generated tables | TableTests |
| C66 | two scanners with the same unread data go through the same steps (`twin`, a bisimulation); writes to tokens stay behind the unread data. Slices: induction on the loop with C27. Refutations by running the model | Writing |
| C67 | the split function over arbitrary tables; a finite check that the machine follows the rules on the 28 followable classes, the induction of C04 over it; 32 other classes each have a text of two to four classes on which machine and rules differ (finite check), lifted to all data with characters of the six classes the texts use | Versions |
| C68 | `Spec/Respelling.v`; two parts that look the same from both sides and have no boundary inside can replace each other inside their cluster (`same_part`, `clusters_part`); each kind of spelling is such a pair; induction on the steps | Respelling |
| C69 | `Spec/Canonical.v`: NFD, canonical equivalence; `Data/Canonical.v`; all 2060 mappings but one are spellings in the sense of C68, and all characters with a combining class are Extend (finite checks); every text is linked to its NFD by such steps, and steps keep the NFD | Canonical |
| C70 | `Spec/Truncation.v: fitting`; C07 (lookahead) and C05 (results are final) make tokens that end four bytes before the known data final, induction on them; C47 for the part alone | Truncation |
| C71 | `Model/WordInt.v`: the same functions with w-bit two's complement; the numbers stay below 2^(w-1): entries of the index table are bytes (finite check), count + len(remain) = len(data) in the loop | WordInt |
| C72 | two families of texts with k equal characters before the place; the summaries of MachineFacts over `repeat`; the automaton is the triple of summaries and the last class | LookBehind |
| C73 | the files are string constants (`Data/GoSources.v`, `Data/TableRawGo.v`), a lexer and parser for a subset of Go (`Model/GoSyntax.v`) turns them into syntax trees, an interpreter (`Model/GoSemantics.v`: typed values, wrapping ints, scopes, calls, panics) runs them. Symbolic execution by rewriting: one equation per kind of statement, `cbv` with arithmetic left alone for expressions, induction for the two loops (`Proofs/Go*.v`); both sides end in the same tests. With C71 the result is that of `Model/Scan.v` | Source |
| C74 | C73 says what one call of the executed source returns; the interpreter is deterministic and monotone in its fuel (`Proofs/GoFuel.v`, induction on fuel and depth, mutual induction on statements and expressions), so "returns r" is a function of the arguments (`Model/GoRuns.v`); inductions over tokens and schedules carry C08, C09 and C06 over to it | SourceText |
| C75 | the same for `ucd_scan.go` and `testdata_scan.go`, with a second syntax and semantics (`Model/UcdSyntax.v`, `Model/UcdSemantics.v`: structs, methods, closures, errors, a Scanner over any reader, iterators) for the part of Go they use. One lemma per loop body by symbolic execution, inductions over the iterations of `for` (sound and complete against the big-step `NextEntry` of `Model/UcdParse.v`) and over the ranges (`Proofs/UcdNext.v`, `Proofs/UcdRun.v`) | UcdSource |
| C76 | sessions of executed calls (`Model/UcdRuns.v`) by induction over the calls: each is one of the model by C75, in both directions; then C31, C32 and C43 for the model | UcdSourceFiles |
| C77 | the executed source as a split function (`Model/GoSplit.v`) agrees with the model's on all data an int can count (C73, C74); a scanner never passes more than its capacity (the invariant of `Proofs/BufioFacts.v`), so by induction over the iterations of Scan and over the calls the two scanners do the same; then C08, C09, C23–C26, C39 and, with C76, C46 | SourceScanner, SourceTests |
| C78 | the text of `Model/Emit.v` run through the parser of `Model/GoSyntax.v`, by induction over rows and elements (`Proofs/EmitParse.v`); with the other sources of `Model/GoLibrary.v` it declares what the committed file does but with the elements of the tree (`Model/GoRegenerated.v`), and LookupFirstChar was proved in C73 for any arrays; then C51, C30, C71 | Regenerated |

Claims that turned out false of the code are kept, with the refutation and the
exact condition under which they hold: C14 (doc comment), C29 (originally "never
fails"), C39, C40, C42, C43, C61, C64 (reversal), C66 (append, earlier tokens), C69 (U+21AE).
