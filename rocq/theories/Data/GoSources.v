(* Generated by tools/gen.py: byte-exact copies of the Go files of the library
   (string literals: a doubled quote stands for one quote). *)
From Coq Require Import String.
Local Open Scope string_scope.

(* textseg/grapheme_clusters.go *)
Definition grapheme_clusters_go : string := "package textseg

import (
	""github.com/apparentlymart/go-textseg/v17/textseg/internal/charprops""
	""github.com/apparentlymart/go-textseg/v17/textseg/internal/machine""
)

// ScanGraphemeClusters is a split function for [bufio.Scanner] that splits
// on grapheme cluster boundaries.
//
// Note that while this function does some minimal UTF-8 validation as part
// of its work, it never actually returns an error and instead just reports
// invalid bytes as individual grapheme clusters. Also in particular it does
// not currently check for overlong encodings or out-of-range Unicode scalar
// values, and so callers should perform their own validation if needed. The
// handling of overlong and out-of-range input may change in future releases.
func ScanGraphemeClusters(data []byte, atEOF bool) (int, []byte, error) {
	if len(data) == 0 {
		return 0, nil, nil
	}

	properties, count := charprops.LookupFirstChar(data)
	if properties == charprops.Error {
		return 1, data[:1], nil
	}
	if count == 0 {
		if len(data) > count && atEOF {
			// If we're already at EOF then this is invalid input, which
			// we treat as each invalid byte being a separate grapheme cluster.
			return 1, data[:1], nil
		}
		return 0, nil, nil
	}
	remain := data[count:]

	state := machine.Begin(properties)
	prev := properties
	for {
		if len(remain) == 0 {
			if atEOF {
				// If we're at the end of the file then whatever we've
				// accumulated so far is a grapheme cluster.
				return count, data[:count], nil
			}
			// If we're not at the end of the file then we'll need more
			// bytes before we can decide if we've reached the end of a
			// grapheme cluster.
			return 0, nil, nil
		}

		next, moreCount := charprops.LookupFirstChar(remain)
		if next == charprops.Error {
			// If the next sequence is invalid then we'll just return here
			// and let the next call deal with that.
			return count, data[:count], nil
		}
		if moreCount == 0 {
			// More bytes required to complete the next UTF-8 sequence.
			if len(remain) != 0 && atEOF {
				// If we're already at EOF then the next UTF-8 sequence is
				// invalid, so we'll report what we already accumulated and
				// then let a subsequent call deal with the invalid byte.
				return count, data[:count], nil
			}
			return 0, nil, nil
		}
		remain = remain[moreCount:]

		split, nextState := state.Transition(prev, next)
		if split {
			// We've found the next split point, so we'll just return what
			// we have and then let the next call pick up from here.
			return count, data[:count], nil
		}
		count += moreCount
		state = nextState
		prev = next
	}
}
".

(* textseg/internal/machine/state.go *)
Definition state_go : string := "package machine

import (
	""github.com/apparentlymart/go-textseg/v17/textseg/internal/charprops""
)

// The state machine implemented here is a Go port of a Rust implementation
// in the ""grapheme_machine"" package on crates.io. It's more general than
// the main textseg package currently needs but maybe a future version will
// expose more of this in the public API if a compelling use-case emerges for
// that.

// State represents different states we can transition through while detecting
// grapheme cluster boundaries.
//
// A State value essentially summarizes a set of category transitions that
// happened before the current one, so that we can detect arbitrary-long
// grapheme clusters using only finite storage.
//
// (In order to actually _use_ a detected grapheme cluster after its bounds
// have been found would require the caller to have buffered everything that
// appeared since the last boundary, but that's the caller's problem.)
type State int

const (
	// StateBase is the initial state at the beginning of the text or when the
	// following should be treated as if it were at the beginning of the text.
	StateBase State = iota

	// When the previous character was [charprops.GCBRegionalIndicator] but
	// its predecessor was not, and therefore if the next character
	// is also [charprops.GCBRegionalIndicator] the two together represent
	// an emoji flag under rules GB12 and GB13.
	StateAwaitEmojiFlag

	// When consecutive scalar values before the previous matched
	// [charprops.GCBExtendedPictographic] followed by any number of
	// [charprops.GCBExtend], and therefore if the next character is
	// [charprops.GCBZWJ] we should transition to [StateGB11AfterZWJ].
	StateGB11BeforeZWJ

	// The previous scalar value of category [charprops.GCBZWJ] arrived while
	// in [StateGB11BeforeZWJ], and therefore rule GB11 is active.
	StateGB11AfterZWJ

	// We encountered [charprops.InCBConsonant] followed by zero or more
	// [charprops.InCBExtend] with no [charprops.InCBLinker] in between.
	StateGB9cConsonant

	// We encountered [charprops.InCBConsonant] followed by at least one
	// [charprops.InCBLinker] and zero or more [charprops.InCBExtend] in any
	// order.
	StateGB9cLinker
)

// Begin initializes the state machine by providing the properties for the
// first character. Call [State.Transition] on the resulting state once
// the second character is known, passing the same properties as ""first"" in
// its ""prev"" argument.
func Begin(first charprops.CharProperties) State {
	return StateBase.nextState(first)
}

// Given the previous category and the next category, Transition returns whether
// there is a grapheme cluster boundary between two characters of those
// categories in the receiving state, and which state should be used for the
// next transition.
//
// Correct use requires that the ""prev"" of one call equal the ""next"" of the
// call that selected the recieving state. If that is not upheld then the
// results are unspecified.
func (s State) Transition(prev, next charprops.CharProperties) (bool, State) {
	nextState := s.nextState(next)

	// The following was slightly more readable with Rust pattern matching
	// syntax, but this is a direct translation of the same logic into Go if
	// statements.

	prevC := prev.GCBProperty()
	nextC := next.GCBProperty()

	// GB1 and GB2 aren't covered here because the caller is expected to
	// use this function only at the boundary between two scalar values, and
	// not at the beginning or end of the input. There is always a grapheme
	// cluster boundary at the beginning and end of the input.

	// GB3: Do not break between CR and LF...
	if prevC == charprops.GCBCR && nextC == charprops.GCBLF {
		return false, nextState
	}
	// GB4 and GB5: ...but otherwise, break before and after any control characters
	if prevC.IsAnyControl() || nextC.IsAnyControl() {
		return true, nextState
	}
	// GB6: Do not break Hangul syllable or other conjoining sequences.
	if prevC == charprops.GCBL && (nextC == charprops.GCBL || nextC == charprops.GCBV || nextC == charprops.GCBLV || nextC == charprops.GCBLVT) {
		return false, nextState
	}
	// GB7: Do not break Hangul syllable or other conjoining sequences.
	if (prevC == charprops.GCBLV || prevC == charprops.GCBV) && (nextC == charprops.GCBV || nextC == charprops.GCBT) {
		return false, nextState
	}
	// GB8: Do not break Hangul syllable or other conjoining sequences.
	if (prevC == charprops.GCBLVT || prevC == charprops.GCBT) && nextC == charprops.GCBT {
		return false, nextState
	}
	// GB9: Do not break before extending characters or ZWJ
	if nextC == charprops.GCBExtend || nextC == charprops.GCBZWJ {
		return false, nextState
	}
	// GB9a: Do not break before spacing marks...
	if nextC == charprops.GCBSpacingMark {
		return false, nextState
	}
	// GB9a: ...or after Prepend characters
	if prevC == charprops.GCBPrepend {
		return false, nextState
	}
	// GB9c: Do not break within certain combinations with Indic_Conjunct_Break (InCB)=Linker
	if s.gb9cActive() {
		prevI := prev.InCBProperty()
		nextI := next.InCBProperty()
		if (prevI == charprops.InCBLinker || prevI == charprops.InCBExtend) && nextI == charprops.InCBConsonant {
			return false, nextState
		}
	}
	// (GB10 was from an earlier version of the specification but is no longer used)
	// GB11: Do not break within emoji modifier sequences or emoji zwj sequences.
	if s.gb11Active() {
		if prevC == charprops.GCBZWJ && nextC == charprops.GCBExtendedPictographic {
			return false, nextState
		}
	}
	// GB12 and GB13: Do not break within emoji flag sequences.
	if s.gb13Active() {
		if prevC == charprops.GCBRegionalIndicator && nextC == charprops.GCBRegionalIndicator {
			return false, nextState
		}
	}
	// GB999: Break in all other locations
	return true, nextState
}

func (s State) nextState(next charprops.CharProperties) State {
	// Two of the multi-character prefixes can begin regardless of what
	// preceeds them. These don't need to be covered by the state-specific
	// branches that follow.
	if next.GCBProperty() == charprops.GCBExtendedPictographic {
		return StateGB11BeforeZWJ
	}
	if next.InCBProperty() == charprops.InCBConsonant {
		return StateGB9cConsonant
	}
	gcbProp := next.GCBProperty()
	incbProp := next.InCBProperty()
	switch s {
	case StateBase:
		switch gcbProp {
		case charprops.GCBRegionalIndicator:
			return StateAwaitEmojiFlag
		default:
			return StateBase
		}
	case StateAwaitEmojiFlag:
		return StateBase
	case StateGB11BeforeZWJ:
		switch gcbProp {
		case charprops.GCBZWJ:
			return StateGB11AfterZWJ
		case charprops.GCBExtend:
			return StateGB11BeforeZWJ
		default:
			return StateBase
		}
	case StateGB11AfterZWJ:
		return StateBase
	case StateGB9cConsonant:
		switch incbProp {
		case charprops.InCBLinker:
			return StateGB9cLinker
		case charprops.InCBExtend:
			return StateGB9cConsonant
		default:
			return StateBase
		}
	case StateGB9cLinker:
		switch incbProp {
		case charprops.InCBLinker, charprops.InCBExtend:
			return StateGB9cLinker
		default:
			return StateBase
		}
	default:
		panic(""invalid state"")
	}
}

func (s State) gb9cActive() bool {
	// GB9c is active only in [StateGB9cLinker].
	return s == StateGB9cLinker
}

func (s State) gb11Active() bool {
	// GB11 is active only in [StateGB11AfterZWJ].
	return s == StateGB11AfterZWJ
}

func (s State) gb13Active() bool {
	// GB12/GB13 is active only in [StateAwaitEmojiFlag].
	return s == StateAwaitEmojiFlag
}
".

(* textseg/internal/charprops/property_table.go *)
Definition property_table_go : string := "package charprops

//go:generate go run ./generate.go

var zeroProperties CharProperties

// LookupFirstChar identifies the grapheme cluster segmentation properties and
// the byte length of the first UTF-8 sequence in the given buffer.
//
// If there are not enough bytes in the buffer to recognize a complete UTF-8
// sequence then this returns a length of zero and a meaningless
// [CharProperties] value.
//
// If the buffer begins with something that cannot possibly be extended to a
// valid UTF-8 sequence then the returned properties are [Error] and length
// as 1 to represent treating just the next byte as an error.
func LookupFirstChar(p []byte) (props CharProperties, length int) {
	if len(p) == 0 {
		return zeroProperties, 0
	}

	first := p[0]
	if first < 128 {
		length = 1
	} else if (first & 0b11100000) == 0b11000000 {
		length = 2
	} else if (first & 0b11110000) == 0b11100000 {
		length = 3
	} else if (first & 0b11111000) == 0b11110000 {
		length = 4
	} else {
		// Invalid initial byte.
		return Error, 1
	}

	if len(p) < length {
		// Buffer begins with incomplete UTF-8 sequence.
		return zeroProperties, 0
	}
	// All of the subsequent bytes of the sequence we're decoding (if any)
	// must be UTF-8 continuation bytes.
	for i := 1; i < length; i++ {
		if (p[i] & 0b11000000) != 0b10000000 {
			return Error, 1
		}
	}

	switch length {
	case 1:
		return lookupProps[first], length
	case 2:
		blockIdx := int(lookupIndices[first&0b111111])
		return lookupProps[(blockIdx<<6)+int(p[1]&0b111111)], length
	case 3:
		blockIdx := int(lookupIndices[first&0b111111])
		blockIdx = int(lookupIndices[(blockIdx<<6)+int(p[1]&0b111111)])
		return lookupProps[(blockIdx<<6)+int(p[2]&0b111111)], length
	case 4:
		blockIdx := int(lookupIndices[first&0b111111])
		blockIdx = int(lookupIndices[(blockIdx<<6)+int(p[1]&0b111111)])
		blockIdx = int(lookupIndices[(blockIdx<<6)+int(p[2]&0b111111)])
		return lookupProps[(blockIdx<<6)+int(p[3]&0b111111)], length
	default:
		panic(""unreachable"") // (because we should've caught this case above)
	}
}
".

(* textseg/internal/charprops/properties.go *)
Definition properties_go : string := "package charprops

import (
	""fmt""
)

// CharProperties is effectively a tuple of both a [GCBProperty] and an
// [InCBProperty] value, stored compactly as a bitwise-OR of valid values
// of those two types.
type CharProperties uint8

const Error = CharProperties(uint8(GCBError) | uint8(InCBError))

func MakeCharProperties(gcpProp GCBProperty, emojiProp GCBProperty, inCBProp InCBProperty) CharProperties {
	return CharProperties(uint8(gcpProp) | uint8(emojiProp) | uint8(inCBProp))
}

func (cp CharProperties) GCBProperty() GCBProperty {
	return GCBProperty(cp & 0x0f)
}

func (cp CharProperties) InCBProperty() InCBProperty {
	return InCBProperty(cp & 0xf0)
}

func (cp CharProperties) String() string {
	if cp == 0 {
		return ""None""
	}
	if cp == Error {
		return ""Error""
	}
	gcbP := cp.GCBProperty()
	inCBP := cp.InCBProperty()
	switch {
	case inCBP == InCBNone:
		return gcbP.String()
	case gcbP == GCBNone:
		return ""InCB="" + inCBP.String()
	default:
		return fmt.Sprintf(""%s|InCB=%s"", gcbP, inCBP)
	}
}

// GCBProperty is an enumeration of Grapheme_Cluster_Break property values,
// from [UAX#29 Section 3.1].
//
// The ExtendedPictographic property is actually derived from the Emoji
// standard's character tables, but is treated by UAX#29 as mutually-exclusive
// with the grapheme cluster break property value and so included in this
// enumeration for simplicity's sake.
//
// Note that the values of this type only set bits in the low nybble because
// they are intended to be bitwise-ORed with GCBProperty to produce
// [CharProperties] values.
//
// [UAX#29 Section 3.1]: https://www.unicode.org/reports/tr29/#Grapheme_Cluster_Break_Property_Values
type GCBProperty uint8

const (
	GCBNone                 GCBProperty = 0x00
	GCBCR                   GCBProperty = 0x01
	GCBControl              GCBProperty = 0x02
	GCBExtend               GCBProperty = 0x03
	GCBExtendedPictographic GCBProperty = 0x04
	GCBL                    GCBProperty = 0x05
	GCBLF                   GCBProperty = 0x06
	GCBLV                   GCBProperty = 0x07
	GCBLVT                  GCBProperty = 0x08
	GCBPrepend              GCBProperty = 0x09
	GCBRegionalIndicator    GCBProperty = 0x0a
	GCBSpacingMark          GCBProperty = 0x0b
	GCBT                    GCBProperty = 0x0c
	GCBV                    GCBProperty = 0x0d
	GCBZWJ                  GCBProperty = 0x0e

	// GCBError is the GCB portion of [Error], which is not a real property
	// value but instead represents that the grapheme cluster segmentation
	// function encountered an invalid UTF-8 sequence.
	GCBError GCBProperty = 0x0f
)

// LookupGCBProperty returns the [GCPProperty] value corresponding to the
// given property name, or [GCBNone] if the name is not recognized.
func LookupGCBProperty(name string) GCBProperty {
	switch name {
	case ""CR"":
		return GCBCR
	case ""Control"":
		return GCBControl
	case ""Extend"":
		return GCBExtend
	case ""L"":
		return GCBL
	case ""LF"":
		return GCBLF
	case ""LV"":
		return GCBLV
	case ""LVT"":
		return GCBLVT
	case ""Prepend"":
		return GCBPrepend
	case ""Regional_Indicator"":
		return GCBRegionalIndicator
	case ""SpacingMark"":
		return GCBSpacingMark
	case ""T"":
		return GCBT
	case ""V"":
		return GCBV
	case ""ZWJ"":
		return GCBZWJ
	default:
		return GCBNone
	}
}

// LookupEmojiProperty returns the [GCPProperty] value corresponding to the
// given emoji property name, or [GCBNone] if the name is not recognized.
//
// Note that because the segmentation rules treat the relevant emoji properties
// as mutually exclusive with the main grapheme clustering properties, we
// use [GCPProperty] to represent both of them and assume that no character
// will have both a nonzero result from [LookupGCPProperty] and from
// [LookupEmojiProperty], and so it's okay to collapse them together into the
// same enumeration. If they ever stop being mutually-exclusive then we'll
// need a different strategy.
func LookupEmojiProperty(name string) GCBProperty {
	switch name {
	case ""Extended_Pictographic"":
		return GCBExtendedPictographic
	default:
		return GCBNone // we don't need any other properties for our purposes here
	}
}

func (p GCBProperty) IsAnyControl() bool {
	switch p {
	case GCBLF, GCBCR, GCBControl:
		return true
	default:
		return false
	}
}

func (p GCBProperty) String() string {
	switch p {
	case GCBCR:
		return ""CR""
	case GCBControl:
		return ""Control""
	case GCBExtend:
		return ""Extend""
	case GCBL:
		return ""L""
	case GCBLF:
		return ""LF""
	case GCBLV:
		return ""LV""
	case GCBLVT:
		return ""LVT""
	case GCBPrepend:
		return ""Prepend""
	case GCBRegionalIndicator:
		return ""Regional_Indicator""
	case GCBSpacingMark:
		return ""SpacingMark""
	case GCBT:
		return ""T""
	case GCBV:
		return ""V""
	case GCBZWJ:
		return ""ZWJ""
	case GCBExtendedPictographic:
		return ""Extended_Pictographic""
	case GCBNone:
		return ""None""
	case GCBError:
		return ""Error""
	default:
		return fmt.Sprintf(""0x%02x"", uint8(p))
	}
}

// InCBProperty is an enumeration of Indic_Conjunct_Break property values,
// as defined in DerivedCoreProperties.txt based on
// [the rules in UAX#44].
//
// These are used in the rule that avoids splitting orthographic syllables in
// inappropriated ways, [GB9c].
//
// Note that the values of this type only set bits in the high nybble because
// they are intended to be bitwise-ORed with GCBProperty to produce
// [CharProperties] values.
//
// [the rules in UAX#44]: https://www.unicode.org/reports/tr44/#Indic_Conjunct_Break
// [GB9c]: https://www.unicode.org/reports/tr29/#GB9c
type InCBProperty uint8

const (
	InCBNone      InCBProperty = 0x00
	InCBConsonant InCBProperty = 0x10
	InCBExtend    InCBProperty = 0x20
	InCBLinker    InCBProperty = 0x30

	// GCBError is the GCB portion of [Error], which is not a real property
	// value but instead represents that the grapheme cluster segmentation
	// function encountered an invalid UTF-8 sequence.
	InCBError InCBProperty = 0xf0
)

// LookupGCBProperty returns the [InCBProperty] value corresponding to the
// given property name, or [InCBNone] if the name is not recognized.
func LookupInCBProperty(name string) InCBProperty {
	switch name {
	case ""Consonant"":
		return InCBConsonant
	case ""Extend"":
		return InCBExtend
	case ""Linker"":
		return InCBLinker
	default:
		return InCBNone
	}
}

func (p InCBProperty) String() string {
	switch p {
	case InCBConsonant:
		return ""Consonant""
	case InCBExtend:
		return ""Extend""
	case InCBLinker:
		return ""Linker""
	default:
		return fmt.Sprintf(""0x%02x"", uint8(p))
	}
}
".

(* autoversion/textseg/unicode17.go *)
Definition unicode17_go : string := "//go:build go1.27 && !go1.28
// +build go1.27,!go1.28

package textseg

import (
	v17 ""github.com/apparentlymart/go-textseg/v17/textseg""
)

// ScanGraphemeClusters is a split function for bufio.Scanner that splits on
// grapheme cluster boundaries, using the text segmentation rules from the
// Unicode version selected by the current Go runtime library.
//
// This function will appear to be missing if your current Go version is not
// supported by your current version of this package.
func ScanGraphemeClusters(data []byte, atEOF bool) (int, []byte, error) {
	return v17.ScanGraphemeClusters(data, atEOF)
}

// UnicodeMajorVersion is the major version of Unicode being used by this
// package. This should always match the first portion of the string returned
// by unicode.Version in the Go standard library.
const UnicodeMajorVersion = 17
".
