(** GENERATED by tools/gen_code.py: the text of the Go files, one string for each line. *)
From Coq Require Import String List.
Import ListNotations.
Local Open Scope string_scope.

(** graphemes/splitfunc.go, 5073 bytes *)
Definition file_graphemes_splitfunc : list string := [
"package graphemes";
"";
"import (";
"	""bufio""";
")";
"";
"// is determines if lookup intersects propert(ies)";
"func (lookup property) is(properties property) bool {";
"	return (lookup & properties) != 0";
"}";
"";
"const _Ignore = _Extend";
"";
"// incbState tracks state for GB9c rule (Indic conjunct clusters)";
"// Pattern: Consonant (Extend|Linker)* Linker (Extend|Linker)* × Consonant";
"type incbState int";
"";
"const (";
"	incbNone      incbState = iota // initial/reset";
"	incbConsonant                  // seen Consonant, awaiting Linker";
"	incbLinker                     // seen Consonant and Linker (conjunct ready)";
")";
"";
"// SplitFunc is a bufio.SplitFunc implementation of Unicode grapheme cluster segmentation, for use with bufio.Scanner.";
"//";
"// See https://unicode.org/reports/tr29/#Grapheme_Cluster_Boundaries.";
"var SplitFunc bufio.SplitFunc = splitFunc[[]byte]";
"";
"func splitFunc[T ~string | ~[]byte](data T, atEOF bool) (advance int, token T, err error) {";
"	var empty T";
"	if len(data) == 0 {";
"		return 0, empty, nil";
"	}";
"";
"	// These vars are stateful across loop iterations";
"	var pos int";
"	var lastExIgnore property = 0     // ""last excluding ignored categories""";
"	var lastLastExIgnore property = 0 // ""last one before that""";
"	var regionalIndicatorCount int";
"";
"	// GB9c state: tracking Indic conjunct clusters";
"	var incb incbState";
"";
"	// Rules are usually of the form Cat1 × Cat2; ""current"" refers to the first property";
"	// to the right of the ×, from which we look back or forward";
"";
"	current, w := lookup(data[pos:])";
"	if w == 0 {";
"		if !atEOF {";
"			// Rune extends past current data, request more";
"			return 0, empty, nil";
"		}";
"		pos = len(data)";
"		return pos, data[:pos], nil";
"	}";
"";
"	// https://unicode.org/reports/tr29/#GB1";
"	// Start of text always advances";
"	pos += w";
"";
"	for {";
"		eot := pos == len(data) // ""end of text""";
"";
"		if eot {";
"			if !atEOF {";
"				// Token extends past current data, request more";
"				return 0, empty, nil";
"			}";
"";
"			// https://unicode.org/reports/tr29/#GB2";
"			break";
"		}";
"";
"		/*";
"			We've switched the evaluation order of GB1↓ and GB2↑. It's ok:";
"			because we've checked for len(data) at the top of this function,";
"			sot and eot are mutually exclusive, order doesn't matter.";
"		*/";
"";
"		// Rules are usually of the form Cat1 × Cat2; ""current"" refers to the first property";
"		// to the right of the ×, from which we look back or forward";
"";
"		// Remember previous properties to avoid lookups/lookbacks";
"		last := current";
"		if !last.is(_Ignore) {";
"			lastLastExIgnore = lastExIgnore";
"			lastExIgnore = last";
"		}";
"";
"		// Update GB9c state based on what we just advanced past";
"		if last.is(_InCBConsonant | _InCBLinker | _InCBExtend) {";
"			switch {";
"			case last.is(_InCBConsonant):";
"				if incb != incbLinker {";
"					incb = incbConsonant";
"				}";
"			case last.is(_InCBLinker):";
"				if incb >= incbConsonant {";
"					incb = incbLinker";
"				}";
"				// case last.is(_InCBExtend): stay in current state";
"			}";
"		} else {";
"			incb = incbNone";
"		}";
"";
"		current, w = lookup(data[pos:])";
"		if w == 0 {";
"			if atEOF {";
"				// Just return the bytes, we can't do anything with them";
"				pos = len(data)";
"				break";
"			}";
"			// Rune extends past current data, request more";
"			return 0, empty, nil";
"		}";
"";
"		// Optimization: no rule can possibly apply";
"		if current|last == 0 { // i.e. both are zero";
"			break";
"		}";
"";
"		// https://unicode.org/reports/tr29/#GB3";
"		if current.is(_LF) && last.is(_CR) {";
"			pos += w";
"			continue";
"		}";
"";
"		// https://unicode.org/reports/tr29/#GB4";
"		// https://unicode.org/reports/tr29/#GB5";
"		if (current | last).is(_Control | _CR | _LF) {";
"			break";
"		}";
"";
"		// https://unicode.org/reports/tr29/#GB6";
"		if current.is(_L|_V|_LV|_LVT) && last.is(_L) {";
"			pos += w";
"			continue";
"		}";
"";
"		// https://unicode.org/reports/tr29/#GB7";
"		if current.is(_V|_T) && last.is(_LV|_V) {";
"			pos += w";
"			continue";
"		}";
"";
"		// https://unicode.org/reports/tr29/#GB8";
"		if current.is(_T) && last.is(_LVT|_T) {";
"			pos += w";
"			continue";
"		}";
"";
"		// https://unicode.org/reports/tr29/#GB9";
"		if current.is(_Extend | _ZWJ) {";
"			pos += w";
"			continue";
"		}";
"";
"		// https://unicode.org/reports/tr29/#GB9a";
"		if current.is(_SpacingMark) {";
"			pos += w";
"			continue";
"		}";
"";
"		// https://unicode.org/reports/tr29/#GB9b";
"		if last.is(_Prepend) {";
"			pos += w";
"			continue";
"		}";
"";
"		// https://unicode.org/reports/tr29/#GB9c";
"		// Do not break within certain combinations with Indic_Conjunct_Break (InCB)=Linker.";
"		if incb == incbLinker && current.is(_InCBConsonant) {";
"			// After matching the pattern, reset state to start tracking a new pattern";
"			// The current Consonant becomes the start of the new pattern";
"			incb = incbConsonant";
"			pos += w";
"			continue";
"		}";
"";
"		// https://unicode.org/reports/tr29/#GB11";
"		if current.is(_ExtendedPictographic) && last.is(_ZWJ) && lastLastExIgnore.is(_ExtendedPictographic) {";
"			pos += w";
"			continue";
"		}";
"";
"		// https://unicode.org/reports/tr29/#GB12";
"		// https://unicode.org/reports/tr29/#GB13";
"		if (current & last).is(_RegionalIndicator) {";
"			regionalIndicatorCount++";
"";
"			odd := regionalIndicatorCount%2 == 1";
"			if odd {";
"				pos += w";
"				continue";
"			}";
"		}";
"";
"		// If we fall through all the above rules, it's a grapheme cluster break";
"		break";
"	}";
"";
"	// Return token";
"	return pos, data[:pos], nil";
"}"].

(** graphemes/iterator.go, 3704 bytes *)
Definition file_graphemes_iterator : list string := [
"package graphemes";
"";
"import ""unicode/utf8""";
"";
"// FromString returns an iterator for the grapheme clusters in the input string.";
"// Iterate while Next() is true, and access the grapheme via Value().";
"func FromString(s string) *Iterator[string] {";
"	return &Iterator[string]{";
"		split: splitFuncString,";
"		data:  s,";
"	}";
"}";
"";
"// FromBytes returns an iterator for the grapheme clusters in the input bytes.";
"// Iterate while Next() is true, and access the grapheme via Value().";
"func FromBytes(b []byte) *Iterator[[]byte] {";
"	return &Iterator[[]byte]{";
"		split: splitFuncBytes,";
"		data:  b,";
"	}";
"}";
"";
"// Iterator is a generic iterator for grapheme clusters in strings or byte slices,";
"// with an ASCII hot path optimization.";
"type Iterator[T ~string | ~[]byte] struct {";
"	split func(T, bool) (int, T, error)";
"	data  T";
"	pos   int";
"	start int";
"	// AnsiEscapeSequences treats 7-bit ANSI escape sequences (ECMA-48) as";
"	// single grapheme clusters when true. The default is false.";
"	//";
"	// 8-bit controls are not enabled by this option. See [AnsiEscapeSequences8Bit].";
"	AnsiEscapeSequences bool";
"	// AnsiEscapeSequences8Bit treats 8-bit C1 ANSI escape sequences (ECMA-48) as single";
"	// grapheme clusters when true. The default is false.";
"	//";
"	// 8-bit control bytes are not UTF-8 encoded, i.e. not valid UTF-8. If you";
"	// choose this option, you are choosing to interpret non-UTF-8 data, caveat";
"	// emptor.";
"	AnsiEscapeSequences8Bit bool";
"}";
"";
"var (";
"	splitFuncString = splitFunc[string]";
"	splitFuncBytes  = splitFunc[[]byte]";
")";
"";
"const (";
"	esc = 0x1B";
"	cr  = 0x0D";
"	bel = 0x07";
"	can = 0x18";
"	sub = 0x1A";
"	st  = 0x9C";
")";
"";
"// Next advances the iterator to the next grapheme cluster.";
"// Returns false when there are no more grapheme clusters.";
"func (iter *Iterator[T]) Next() bool {";
"	if iter.pos >= len(iter.data) {";
"		return false";
"	}";
"	iter.start = iter.pos";
"";
"	b := iter.data[iter.pos]";
"	if iter.AnsiEscapeSequences && b == esc {";
"		if a := ansiEscapeLength(iter.data[iter.pos:]); a > 0 {";
"			iter.pos += a";
"			return true";
"		}";
"	}";
"	if iter.AnsiEscapeSequences8Bit && b >= 0x80 && b <= 0x9F {";
"		if a := ansiEscapeLength8Bit(iter.data[iter.pos:]); a > 0 {";
"			iter.pos += a";
"			return true";
"		}";
"	}";
"";
"	// ASCII hot path: any ASCII is one grapheme when next byte is ASCII or end.";
"	if b < utf8.RuneSelf && b != cr {";
"		if iter.pos+1 >= len(iter.data) || iter.data[iter.pos+1] < utf8.RuneSelf {";
"			iter.pos++";
"			return true";
"		}";
"	}";
"";
"	// Fall back to UAX29 grapheme parsing";
"	remaining := iter.data[iter.pos:]";
"	advance, _, err := iter.split(remaining, true)";
"	if err != nil {";
"		panic(err)";
"	}";
"	if advance <= 0 {";
"		panic(""splitFunc returned a zero or negative advance"")";
"	}";
"	iter.pos += advance";
"	if iter.pos > len(iter.data) {";
"		panic(""splitFunc advanced beyond end of data"")";
"	}";
"	return true";
"}";
"";
"// Value returns the current grapheme cluster.";
"func (iter *Iterator[T]) Value() T {";
"	return iter.data[iter.start:iter.pos]";
"}";
"";
"// Start returns the byte position of the current grapheme in the original data.";
"func (iter *Iterator[T]) Start() int {";
"	return iter.start";
"}";
"";
"// End returns the byte position after the current grapheme in the original data.";
"func (iter *Iterator[T]) End() int {";
"	return iter.pos";
"}";
"";
"// Reset resets the iterator to the beginning of the data.";
"func (iter *Iterator[T]) Reset() {";
"	iter.start = 0";
"	iter.pos = 0";
"}";
"";
"// SetText sets the data for the iterator to operate on, and resets all state.";
"func (iter *Iterator[T]) SetText(data T) {";
"	iter.data = data";
"	iter.start = 0";
"	iter.pos = 0";
"}";
"";
"// First returns the first grapheme cluster without advancing the iterator.";
"func (iter *Iterator[T]) First() T {";
"	if len(iter.data) == 0 {";
"		return iter.data";
"	}";
"";
"	// Use a copy to leverage Next()'s ASCII optimization";
"	cp := *iter";
"	cp.pos = 0";
"	cp.start = 0";
"	cp.Next()";
"	return cp.Value()";
"}"].

(** graphemes/ansi.go, 3629 bytes *)
Definition file_graphemes_ansi : list string := [
"package graphemes";
"";
"// ansiEscapeLength returns the byte length of a valid 7-bit ANSI escape";
"// sequence at the start of data, or 0 if none.";
"//";
"// Recognized forms (ECMA-48 / ISO 6429):";
"//   - CSI: ESC [ then parameter bytes (0x30-0x3F), intermediate (0x20-0x2F), final (0x40-0x7E)";
"//   - OSC: ESC ] then payload until BEL (0x07), 7-bit ST (ESC \), CAN (0x18), or SUB (0x1A)";
"//   - DCS, SOS, PM, APC: ESC P/X/^/_ then payload until 7-bit ST (ESC \), CAN, or SUB";
"//   - Two-byte: ESC + Fe/Fs (0x40-0x7E excluding above), or Fp (0x30-0x3F), or nF (0x20-0x2F then final)";
"func ansiEscapeLength[T ~string | ~[]byte](data T) int {";
"	n := len(data)";
"	if n < 2 || data[0] != esc {";
"		return 0";
"	}";
"";
"	b1 := data[1]";
"	switch b1 {";
"	case '[': // CSI";
"		body := csiBodyLength(data[2:])";
"		if body == 0 {";
"			return 0";
"		}";
"		return 2 + body";
"	case ']': // OSC - allows BEL or 7-bit ST terminator";
"		body := oscLength(data[2:])";
"		if body < 0 {";
"			return 0";
"		}";
"		return 2 + body";
"	case 'P', 'X', '^', '_': // DCS, SOS, PM, APC";
"		body := stSequenceLength(data[2:])";
"		if body < 0 {";
"			return 0";
"		}";
"		return 2 + body";
"	}";
"";
"	if b1 >= 0x40 && b1 <= 0x7E {";
"		// Fe/Fs two-byte; [ ] P X ^ _ handled above";
"		return 2";
"	}";
"	if b1 >= 0x30 && b1 <= 0x3F {";
"		// Fp (private) two-byte";
"		return 2";
"	}";
"	if b1 >= 0x20 && b1 <= 0x2F {";
"		// nF: intermediates then one final (0x30-0x7E)";
"		i := 2";
"		for i < n && data[i] >= 0x20 && data[i] <= 0x2F {";
"			i++";
"		}";
"		if i < n && data[i] >= 0x30 && data[i] <= 0x7E {";
"			return i + 1";
"		}";
"		return 0";
"	}";
"";
"	return 0";
"}";
"";
"// csiBodyLength returns the length of the CSI body (param/intermediate/final bytes).";
"// data is the slice after ""ESC ["".";
"// Per ECMA-48, the CSI body has the form:";
"//";
"//	parameters (0x30–0x3F)*, intermediates (0x20–0x2F)*, final (0x40–0x7E)";
"//";
"// Once an intermediate byte is seen, subsequent parameter bytes are invalid.";
"func csiBodyLength[T ~string | ~[]byte](data T) int {";
"	seenIntermediate := false";
"	for i := 0; i < len(data); i++ {";
"		b := data[i]";
"		if b >= 0x30 && b <= 0x3F {";
"			if seenIntermediate {";
"				return 0";
"			}";
"			continue";
"		}";
"		if b >= 0x20 && b <= 0x2F {";
"			seenIntermediate = true";
"			continue";
"		}";
"		if b >= 0x40 && b <= 0x7E {";
"			return i + 1";
"		}";
"		return 0";
"	}";
"	return 0";
"}";
"";
"// oscLength returns the length of the OSC body.";
"// data is the slice after ""ESC ]"".";
"//";
"// Returns:";
"//   - n >= 0: consumed body length (includes BEL/ST terminator when present)";
"//   - -1: not terminated in the provided data";
"//";
"// OSC accepts BEL (0x07) or 7-bit ST (ESC \) as terminators by widespread convention.";
"// Per ECMA-48, CAN (0x18) and SUB (0x1A) cancel the control string; in that";
"// case they are not part of the OSC sequence length.";
"func oscLength[T ~string | ~[]byte](data T) int {";
"	for i := 0; i < len(data); i++ {";
"		b := data[i]";
"		if b == bel {";
"			return i + 1";
"		}";
"		if b == can || b == sub {";
"			return i";
"		}";
"		if b == esc && i+1 < len(data) && data[i+1] == '\\' {";
"			return i + 2";
"		}";
"	}";
"	return -1";
"}";
"";
"// stSequenceLength returns the length of a control-string body.";
"// data is the slice after ""ESC x"".";
"//";
"// Returns:";
"//   - n >= 0: consumed body length (includes ST terminator when present)";
"//   - -1: not terminated in the provided data";
"//";
"// Used for DCS, SOS, PM, and APC, which per ECMA-48 terminate with ST.";
"// ST here is the 7-bit form (ESC \).";
"// CAN (0x18) and SUB (0x1A) cancel the control string; in that case they are";
"// not part of the sequence length.";
"func stSequenceLength[T ~string | ~[]byte](data T) int {";
"	for i := 0; i < len(data); i++ {";
"		if data[i] == can || data[i] == sub {";
"			return i";
"		}";
"		if data[i] == esc && i+1 < len(data) && data[i+1] == '\\' {";
"			return i + 2";
"		}";
"	}";
"	return -1";
"}"].

(** graphemes/ansi8.go, 1904 bytes *)
Definition file_graphemes_ansi8 : list string := [
"package graphemes";
"";
"// ansiEscapeLength8Bit returns the byte length of a valid 8-bit C1 ANSI";
"// sequence at the start of data, or 0 if none.";
"//";
"// Recognized forms (ECMA-48 / ISO 6429):";
"//   - C1 CSI (0x9B) body as parameter/intermediate/final bytes";
"//   - C1 OSC (0x9D) body terminated by BEL, C1 ST, CAN, or SUB";
"//   - C1 DCS/SOS/PM/APC (0x90/0x98/0x9E/0x9F) body terminated by C1 ST, CAN, or SUB";
"//   - Standalone C1 controls (0x80..0x9F not listed above): single byte";
"func ansiEscapeLength8Bit[T ~string | ~[]byte](data T) int {";
"	if len(data) == 0 {";
"		return 0";
"	}";
"";
"	switch data[0] {";
"	case 0x9B: // C1 CSI";
"		body := csiBodyLength(data[1:])";
"		if body == 0 {";
"			return 0";
"		}";
"		return 1 + body";
"	case 0x9D: // C1 OSC";
"		body := oscLengthC1(data[1:])";
"		if body < 0 {";
"			return 0";
"		}";
"		return 1 + body";
"	case 0x90, 0x98, 0x9E, 0x9F: // C1 DCS, SOS, PM, APC";
"		body := stSequenceLengthC1(data[1:])";
"		if body < 0 {";
"			return 0";
"		}";
"		return 1 + body";
"	default:";
"		if data[0] >= 0x80 && data[0] <= 0x9F {";
"			return 1";
"		}";
"	}";
"";
"	return 0";
"}";
"";
"// oscLengthC1 returns the length of a C1 OSC body.";
"// data is the slice after the C1 OSC initiator (0x9D).";
"//";
"// Returns:";
"//   - n >= 0: consumed body length (includes BEL/ST terminator when present)";
"//   - -1: not terminated in the provided data";
"//";
"// Terminators: BEL (0x07) or C1 ST (0x9C).";
"// CAN (0x18) and SUB (0x1A) cancel the control string.";
"func oscLengthC1[T ~string | ~[]byte](data T) int {";
"	for i := 0; i < len(data); i++ {";
"		b := data[i]";
"		if b == bel || b == st {";
"			return i + 1";
"		}";
"		if b == can || b == sub {";
"			return i";
"		}";
"	}";
"	return -1";
"}";
"";
"// stSequenceLengthC1 parses DCS/SOS/PM/APC bodies that terminate with C1 ST";
"// (0x9C), or are canceled by CAN/SUB.";
"func stSequenceLengthC1[T ~string | ~[]byte](data T) int {";
"	for i := 0; i < len(data); i++ {";
"		b := data[i]";
"		if b == can || b == sub {";
"			return i";
"		}";
"		if b == st {";
"			return i + 1";
"		}";
"	}";
"	return -1";
"}"].

(** words/splitfunc.go, 6712 bytes *)
Definition file_words_splitfunc : list string := [
"package words";
"";
"import (";
"	""bufio""";
"	""unicode/utf8""";
")";
"";
"// is determines if lookup intersects propert(ies)";
"func (lookup property) is(properties property) bool {";
"	return (lookup & properties) != 0";
"}";
"";
"const (";
"	_AHLetter   = _ALetter | _HebrewLetter";
"	_MidNumLetQ = _MidNumLet | _SingleQuote";
"	_Ignore     = _Extend | _Format | _ZWJ";
")";
"";
"// SplitFunc is a bufio.SplitFunc implementation of word segmentation, for use with bufio.Scanner.";
"//";
"// See https://unicode.org/reports/tr29/#Word_Boundaries.";
"var SplitFunc bufio.SplitFunc = splitFunc[[]byte]";
"";
"func decodeRune[T ~string | ~[]byte](data T) (rune, int) {";
"	switch v := any(data).(type) {";
"	case string:";
"		return utf8.DecodeRuneInString(v)";
"	case []byte:";
"		return utf8.DecodeRune(v)";
"	default:";
"		// Handle named string/[]byte types.";
"		return utf8.DecodeRuneInString(string(data))";
"	}";
"}";
"";
"func splitFunc[T ~string | ~[]byte](data T, atEOF bool) (advance int, token T, err error) {";
"	var none Joiners[T]";
"	return none.splitFunc(data, atEOF)";
"}";
"";
"func (j *Joiners[T]) splitFunc(data T, atEOF bool) (advance int, token T, err error) {";
"	var empty T";
"	if len(data) == 0 {";
"		return 0, empty, nil";
"	}";
"";
"	// These vars are stateful across loop iterations";
"	var pos int";
"	var lastExIgnore property     // ""last excluding ignored categories""";
"	var lastLastExIgnore property // ""the last one before that""";
"	var regionalIndicatorCount int";
"";
"	// Rules are usually of the form Cat1 × Cat2; ""current"" refers to the first property";
"	// to the right of the ×, from which we look back or forward";
"";
"	current, w := lookup(data[pos:])";
"	if w == 0 {";
"		if !atEOF {";
"			// Rune extends past current data, request more";
"			return 0, empty, nil";
"		}";
"		pos = len(data)";
"		return pos, data[:pos], nil";
"	}";
"";
"	if j != nil && j.Leading != nil {";
"		r, _ := decodeRune(data[pos:])";
"		if runesContain(j.Leading, r) {";
"			// treat leading joiners as if they are letter,";
"			// then depend on the existing logic below";
"			current |= _AHLetter";
"		}";
"	}";
"";
"	// https://unicode.org/reports/tr29/#WB1";
"	// Start of text always advances";
"	pos += w";
"";
"	for {";
"		eot := pos == len(data) // ""end of text""";
"";
"		if eot {";
"			if !atEOF {";
"				// Token extends past current data, request more";
"				return 0, empty, nil";
"			}";
"";
"			// https://unicode.org/reports/tr29/#WB2";
"			break";
"		}";
"";
"		// Remember previous properties to avoid lookups/lookbacks";
"		last := current";
"		if !last.is(_Ignore) {";
"			lastLastExIgnore = lastExIgnore";
"			lastExIgnore = last";
"		}";
"";
"		current, w = lookup(data[pos:])";
"		if w == 0 {";
"			if atEOF {";
"				// Just return the bytes, we can't do anything with them";
"				pos = len(data)";
"				break";
"			}";
"			// Rune extends past current data, request more";
"			return 0, empty, nil";
"		}";
"";
"		if j != nil && j.Middle != nil {";
"			r, _ := decodeRune(data[pos:])";
"			if runesContain(j.Middle, r) {";
"				// treat middle joiners as if they are middle letters/numbers,";
"				// then depend on the existing logic below";
"				current |= _MidNumLet";
"			}";
"		}";
"";
"		// https://unicode.org/reports/tr29/#WB5";
"		// https://unicode.org/reports/tr29/#WB8";
"		// https://unicode.org/reports/tr29/#WB9";
"		// https://unicode.org/reports/tr29/#WB10";
"		if current.is(_Numeric|_AHLetter) && lastExIgnore.is(_Numeric|_AHLetter) {";
"			pos += w";
"			continue";
"		}";
"";
"		// https://unicode.org/reports/tr29/#WB3d";
"		if (current & last).is(_WSegSpace) {";
"			pos += w";
"			continue";
"		}";
"";
"		// https://unicode.org/reports/tr29/#WB3";
"		if current.is(_LF) && last.is(_CR) {";
"			pos += w";
"			continue";
"		}";
"";
"		// https://unicode.org/reports/tr29/#WB3a";
"		// https://unicode.org/reports/tr29/#WB3b";
"		if (last | current).is(_Newline | _CR | _LF) {";
"			break";
"		}";
"";
"		// https://unicode.org/reports/tr29/#WB3c";
"		if current.is(_ExtendedPictographic) && last.is(_ZWJ) {";
"			pos += w";
"			continue";
"		}";
"";
"		// https://unicode.org/reports/tr29/#WB4";
"		if current.is(_Extend | _Format | _ZWJ) {";
"			pos += w";
"			continue";
"		}";
"";
"		// WB4 applies to subsequent rules; there is an implied ""ignoring Extend & Format & ZWJ""";
"		// https://unicode.org/reports/tr29/#Grapheme_Cluster_and_Format_Rules";
"		// The previous/subsequent funcs are shorthand for ""seek a property but skip over Extend|Format|ZWJ on the way""";
"";
"		// https://unicode.org/reports/tr29/#WB6";
"		if current.is(_MidLetter|_MidNumLetQ) && lastExIgnore.is(_AHLetter) {";
"			advance, more := subsequent(_AHLetter, data[pos+w:], atEOF)";
"";
"			if more {";
"				// Token extends past current data, request more";
"				return 0, empty, nil";
"			}";
"";
"			found := advance != notfound";
"			if found {";
"				pos += w + advance";
"				continue";
"			}";
"		}";
"";
"		// https://unicode.org/reports/tr29/#WB7";
"		if current.is(_AHLetter) && lastExIgnore.is(_MidLetter|_MidNumLetQ) && lastLastExIgnore.is(_AHLetter) {";
"			pos += w";
"			continue";
"		}";
"";
"		// https://unicode.org/reports/tr29/#WB7a";
"		if current.is(_SingleQuote) && lastExIgnore.is(_HebrewLetter) {";
"			pos += w";
"			continue";
"		}";
"";
"		// https://unicode.org/reports/tr29/#WB7b";
"		if current.is(_DoubleQuote) && lastExIgnore.is(_HebrewLetter) {";
"			advance, more := subsequent(_HebrewLetter, data[pos+w:], atEOF)";
"";
"			if more {";
"				// Token extends past current data, request more";
"				return 0, empty, nil";
"			}";
"";
"			found := advance != notfound";
"			if found {";
"				pos += w + advance";
"				continue";
"			}";
"		}";
"";
"		// https://unicode.org/reports/tr29/#WB7c";
"		if current.is(_HebrewLetter) && lastExIgnore.is(_DoubleQuote) && lastLastExIgnore.is(_HebrewLetter) {";
"			pos += w";
"			continue";
"		}";
"";
"		// https://unicode.org/reports/tr29/#WB11";
"		if current.is(_Numeric) && lastExIgnore.is(_MidNum|_MidNumLetQ) && lastLastExIgnore.is(_Numeric) {";
"			pos += w";
"			continue";
"		}";
"";
"		// https://unicode.org/reports/tr29/#WB12";
"		if current.is(_MidNum|_MidNumLetQ) && lastExIgnore.is(_Numeric) {";
"			advance, more := subsequent(_Numeric, data[pos+w:], atEOF)";
"";
"			if more {";
"				// Token extends past current data, request more";
"				return 0, empty, nil";
"			}";
"";
"			if advance != notfound {";
"				pos += w + advance";
"				continue";
"			}";
"		}";
"";
"		// https://unicode.org/reports/tr29/#WB13";
"		if current.is(_Katakana) && lastExIgnore.is(_Katakana) {";
"			pos += w";
"			continue";
"		}";
"";
"		// https://unicode.org/reports/tr29/#WB13a";
"		if current.is(_ExtendNumLet) && lastExIgnore.is(_AHLetter|_Numeric|_Katakana|_ExtendNumLet) {";
"			pos += w";
"			continue";
"		}";
"";
"		// https://unicode.org/reports/tr29/#WB13b";
"		if current.is(_AHLetter|_Numeric|_Katakana) && lastExIgnore.is(_ExtendNumLet) {";
"			pos += w";
"			continue";
"		}";
"";
"		// https://unicode.org/reports/tr29/#WB15 and";
"		// https://unicode.org/reports/tr29/#WB16";
"		if current.is(_RegionalIndicator) && lastExIgnore.is(_RegionalIndicator) {";
"			regionalIndicatorCount++";
"";
"			odd := regionalIndicatorCount%2 == 1";
"			if odd {";
"				pos += w";
"				continue";
"			}";
"		}";
"";
"		// https://unicode.org/reports/tr29/#WB999";
"		// If we fall through all the above rules, it's a word break";
"		break";
"	}";
"";
"	return pos, data[:pos], nil";
"}"].

(** words/seek.go, 1030 bytes *)
Definition file_words_seek : list string := [
"package words";
"";
"const notfound = -1";
"";
"// subsequent looks ahead in the buffer until it hits a rune in properties,";
"// ignoring runes with the _Ignore property per WB4";
"func subsequent[T ~string | ~[]byte](properties property, data T, atEOF bool) (advance int, more bool) {";
"	i := 0";
"	for i < len(data) {";
"		lookup, w := lookup(data[i:])";
"		if w == 0 {";
"			if atEOF {";
"				// Nothing more to evaluate";
"				return notfound, false";
"			}";
"			// More to evaluate - return notfound to indicate no match found yet";
"			return notfound, true";
"		}";
"";
"		if lookup.is(_Ignore) {";
"			i += w";
"			continue";
"		}";
"";
"		if lookup.is(properties) {";
"			// Found it";
"			return i, false";
"		}";
"";
"		// If we see a non-ignored character that doesn't match,";
"		// the property is definitely not ""immediately subsequent""";
"		return notfound, false";
"	}";
"";
"	// If we reach here, we've only seen ignored characters or incomplete runes";
"	if atEOF {";
"		// Nothing more to evaluate";
"		return notfound, false";
"	}";
"";
"	// Need more - return notfound to indicate no match found yet";
"	return notfound, true";
"}"].

(** words/joiners.go, 1380 bytes *)
Definition file_words_joiners : list string := [
"package words";
"";
"// Joiners sets runes that should be treated like word characters, where";
"// otherwise words will be split. See the [Joiners] type.";
"func (iter *Iterator[T]) Joiners(j *Joiners[T]) {";
"	iter.Split(j.splitFunc)";
"}";
"";
"// Joiners allows specification of characters (runes) which will join words (tokens)";
"// rather than breaking them. For example, ""@"" breaks words by default,";
"// but you might wish to join words into email addresses.";
"type Joiners[T ~string | ~[]byte] struct {";
"	// Middle specifies which characters (runes) should";
"	// join words (tokens) where they would otherwise be split,";
"	// in the middle of a word.";
"	//";
"	// For example, specifying ""-"" will join hypenated-words.";
"	// Specifying ""@"" will preserve email addresses.";
"	//";
"	// Note that . (as in ""example.com"") and ' (as in ""it's"") are already mid-joiners,";
"	// specifying them will be redundant and hurt performance.";
"	Middle []rune";
"";
"	// Leading specifies which characters (runes) should";
"	// join words (tokens) where they would otherwise be split,";
"	// at the beginning of a word.";
"	//";
"	// For example, specifying ""#"" will join #hashtags.";
"	// Specifying ""."" will preserve leading decimals like .01.";
"	Leading []rune";
"}";
"";
"func runesContain(runes []rune, rune rune) bool {";
"	// Did some bechmarking, a map isn't faster for small numbers";
"	for _, r := range runes {";
"		if r == rune {";
"			return true";
"		}";
"	}";
"	return false";
"}"].

(** words/iterator.go, 3170 bytes *)
Definition file_words_iterator : list string := [
"package words";
"";
"// Iterator is a generic iterator for words in strings or byte slices,";
"// with an ASCII hot path optimization.";
"type Iterator[T ~string | ~[]byte] struct {";
"	split func(T, bool) (int, T, error)";
"	data  T";
"	pos   int";
"	start int";
"}";
"";
"var (";
"	splitFuncString = splitFunc[string]";
"	splitFuncBytes  = splitFunc[[]byte]";
")";
"";
"// FromString returns an iterator for the words in the input string.";
"// Iterate while Next() is true, and access the word via Value().";
"func FromString(s string) *Iterator[string] {";
"	return &Iterator[string]{";
"		split: splitFuncString,";
"		data:  s,";
"	}";
"}";
"";
"// FromBytes returns an iterator for the words in the input bytes.";
"// Iterate while Next() is true, and access the word via Value().";
"func FromBytes(b []byte) *Iterator[[]byte] {";
"	return &Iterator[[]byte]{";
"		split: splitFuncBytes,";
"		data:  b,";
"	}";
"}";
"";
"// isASCIIAlphanumeric returns true if b is in [a-zA-Z0-9]";
"func isASCIIAlphanumeric(b byte) bool {";
"	return (b >= 'a' && b <= 'z') || (b >= 'A' && b <= 'Z') || (b >= '0' && b <= '9')";
"}";
"";
"// Next advances the iterator to the next word.";
"// Returns false when there are no more words.";
"func (iter *Iterator[T]) Next() bool {";
"	if iter.pos >= len(iter.data) {";
"		return false";
"	}";
"	iter.start = iter.pos";
"";
"	// ASCII hot path: consume contiguous ASCII alphanumerics";
"	// followed by ASCII space (or end of data)";
"	b := iter.data[iter.pos]";
"	if isASCIIAlphanumeric(b) {";
"		// Consume all contiguous ASCII alphanumerics";
"		end := iter.pos + 1";
"		for end < len(iter.data) && isASCIIAlphanumeric(iter.data[end]) {";
"			end++";
"		}";
"		// Check if followed by ASCII space or end of data";
"		if end >= len(iter.data) || iter.data[end] == ' ' {";
"			iter.pos = end";
"			return true";
"		}";
"		// Otherwise fall through to splitFunc";
"	}";
"";
"	// Fall back to full word parsing";
"	remaining := iter.data[iter.pos:]";
"	advance, _, err := iter.split(remaining, true)";
"	if err != nil {";
"		panic(err)";
"	}";
"	if advance <= 0 {";
"		panic(""splitFunc returned a zero or negative advance"")";
"	}";
"	iter.pos += advance";
"	if iter.pos > len(iter.data) {";
"		panic(""splitFunc advanced beyond end of data"")";
"	}";
"	return true";
"}";
"";
"// Value returns the current word.";
"func (iter *Iterator[T]) Value() T {";
"	return iter.data[iter.start:iter.pos]";
"}";
"";
"// Start returns the byte position of the current word in the original data.";
"func (iter *Iterator[T]) Start() int {";
"	return iter.start";
"}";
"";
"// End returns the byte position after the current word in the original data.";
"func (iter *Iterator[T]) End() int {";
"	return iter.pos";
"}";
"";
"// Reset resets the iterator to the beginning of the data.";
"func (iter *Iterator[T]) Reset() {";
"	iter.start = 0";
"	iter.pos = 0";
"}";
"";
"// SetText sets the data for the iterator to operate on, and resets all state.";
"func (iter *Iterator[T]) SetText(data T) {";
"	iter.data = data";
"	iter.start = 0";
"	iter.pos = 0";
"}";
"";
"// Split sets the SplitFunc for the Iterator.";
"func (iter *Iterator[T]) Split(split func(T, bool) (int, T, error)) {";
"	iter.split = split";
"}";
"";
"// First returns the first word without advancing the iterator.";
"func (iter *Iterator[T]) First() T {";
"	if len(iter.data) == 0 {";
"		return iter.data";
"	}";
"";
"	// Use a copy to leverage Next()'s ASCII optimization";
"	cp := *iter";
"	cp.pos = 0";
"	cp.start = 0";
"	cp.Next()";
"	return cp.Value()";
"}"].

(** words/bleve_compat.go, 2626 bytes *)
Definition file_words_bleve_compat : list string := [
"package words";
"";
"// BleveNumeric determines if a token is Numeric using the Bleve segmenter's.";
"// definition, see: https://github.com/blevesearch/segment/blob/master/segment_words.rl#L199-L207";
"// This API is experimental.";
"func BleveNumeric(token []byte) bool {";
"	var pos, w int";
"	var current property";
"	var lastExIgnore property     // ""last excluding ignored categories""";
"	var lastLastExIgnore property // ""the last one before that""";
"";
"	for pos < len(token) {";
"		// Remember previous properties to avoid lookups/lookbacks";
"		last := current";
"		if !last.is(_Ignore) {";
"			lastLastExIgnore = lastExIgnore";
"			lastExIgnore = last";
"		}";
"";
"		current, w = lookup(token[pos:])";
"";
"		if pos == 0 {";
"			// must start with Numeric|ExtendNumLet";
"			if current.is(_Numeric | _ExtendNumLet) {";
"				pos += w";
"				continue";
"			}";
"			// not numeric, can move on";
"			return false";
"		}";
"";
"		// https://unicode.org/reports/tr29/#WB8";
"		if last.is(_Numeric) && current.is(_Numeric) {";
"			pos += w";
"			continue";
"		}";
"";
"		// https://unicode.org/reports/tr29/#WB11";
"		if current.is(_Numeric) && lastExIgnore.is(_MidNum|_MidNumLetQ) && lastLastExIgnore.is(_Numeric) {";
"			pos += w";
"			continue";
"		}";
"";
"		// WB12.  Numeric × (MidNum | MidNumLet | Single_Quote) Numeric";
"		// https://unicode.org/reports/tr29/#WB12";
"		if current.is(_MidNum|_MidNumLetQ) && lastExIgnore.is(_Numeric) {";
"			advance, _ := subsequent(_Numeric, token[pos+w:], true)";
"			if advance != notfound {";
"				pos += w + advance";
"				continue";
"			}";
"		}";
"";
"		// https://unicode.org/reports/tr29/#WB13a";
"		if current.is(_ExtendNumLet) && lastExIgnore.is(_Numeric|_ExtendNumLet) {";
"			pos += w";
"			continue";
"		}";
"";
"		// https://unicode.org/reports/tr29/#WB13b";
"		if current.is(_Numeric) && lastExIgnore.is(_ExtendNumLet) {";
"			pos += w";
"			continue";
"		}";
"";
"		// if we get here, none of the above rules apply";
"		return false";
"	}";
"";
"	return true";
"}";
"";
"// BleveIdeographic determines if a token is comprised ideographs, by the";
"// Bleve segmenter's definition. It is the union of Han, Katakana, & Hiragana.";
"// See https://github.com/blevesearch/segment/blob/master/segment_words.rl";
"// ...and search for uses of ""Ideo"". This API is experimental.";
"func BleveIdeographic(token []byte) bool {";
"	var pos int";
"";
"	for pos < len(token) {";
"		current, w := lookup(token[pos:])";
"";
"		if pos == 0 {";
"			// must start with ideo";
"			if current.is(_BleveIdeographic) {";
"				pos += w";
"				continue";
"			}";
"			// not ideo, can move on";
"			return false";
"		}";
"";
"		// approximates https://unicode.org/reports/tr29/#WB13";
"		if current.is(_BleveIdeographic | _ExtendNumLet | _Ignore) {";
"			pos += w";
"			continue";
"		}";
"";
"		// if we get here, none of the above rules apply";
"		return false";
"	}";
"";
"	return true";
"}"].

(** sentences/splitfunc.go, 5089 bytes *)
Definition file_sentences_splitfunc : list string := [
"package sentences";
"";
"import (";
"	""bufio""";
")";
"";
"// is determines if lookup intersects propert(ies)";
"func (lookup property) is(properties property) bool {";
"	return (lookup & properties) != 0";
"}";
"";
"const (";
"	_SATerm  = _STerm | _ATerm";
"	_ParaSep = _Sep | _CR | _LF";
"	_Ignore  = _Extend | _Format";
")";
"";
"// SplitFunc is a bufio.SplitFunc implementation of sentence segmentation, for use with bufio.Scanner.";
"//";
"// See https://unicode.org/reports/tr29/#Sentence_Boundaries.";
"var SplitFunc bufio.SplitFunc = splitFunc[[]byte]";
"";
"// SplitFunc is a bufio.SplitFunc implementation of word segmentation, for use with bufio.Scanner.";
"func splitFunc[T ~string | ~[]byte](data T, atEOF bool) (advance int, token T, err error) {";
"	var empty T";
"	if len(data) == 0 {";
"		return 0, empty, nil";
"	}";
"";
"	// These vars are stateful across loop iterations";
"	var pos int";
"	var lastExIgnore property     // ""last excluding ignored categories""";
"	var lastLastExIgnore property // ""last one before that""";
"	var lastExIgnoreSp property";
"	var lastExIgnoreClose property";
"	var lastExIgnoreSpClose property";
"	var lastExIgnoreParaSepSpClose property";
"";
"	// Rules are usually of the form Cat1 × Cat2; ""current"" refers to the first property";
"	// to the right of the ×, from which we look back or forward";
"";
"	current, w := lookup(data[pos:])";
"	if w == 0 {";
"		if !atEOF {";
"			// Rune extends past current data, request more";
"			return 0, empty, nil";
"		}";
"		pos = len(data)";
"		return pos, data[:pos], nil";
"	}";
"";
"	// https://unicode.org/reports/tr29/#SB1";
"	// Start of text always advances";
"	pos += w";
"";
"main:";
"	for {";
"		eot := pos == len(data) // ""end of text""";
"";
"		if eot {";
"			if !atEOF {";
"				// Token extends past current data, request more";
"				return 0, empty, nil";
"			}";
"";
"			// https://unicode.org/reports/tr29/#SB2";
"			break";
"		}";
"";
"		// Remember previous properties to avoid lookups/lookbacks";
"		last := current";
"";
"		if !last.is(_Ignore) {";
"			lastLastExIgnore = lastExIgnore";
"			lastExIgnore = last";
"		}";
"";
"		if !lastExIgnore.is(_Sp) {";
"			lastExIgnoreSp = lastExIgnore";
"		}";
"";
"		if !lastExIgnore.is(_Close) {";
"			lastExIgnoreClose = lastExIgnore";
"		}";
"";
"		if !lastExIgnoreSp.is(_Close) {";
"			lastExIgnoreSpClose = lastExIgnoreSp";
"		}";
"";
"		if !lastExIgnoreSpClose.is(_ParaSep) {";
"			lastExIgnoreParaSepSpClose = lastExIgnoreSpClose";
"		}";
"";
"		current, w = lookup(data[pos:])";
"		if w == 0 {";
"			if atEOF {";
"				// Just return the bytes, we can't do anything with them";
"				pos = len(data)";
"				break";
"			}";
"			// Rune extends past current data, request more";
"			return 0, empty, nil";
"		}";
"";
"		// Optimization: no rule can possibly apply";
"		if current|last == 0 { // i.e. both are zero";
"			pos += w";
"			continue";
"		}";
"";
"		// https://unicode.org/reports/tr29/#SB3";
"		if current.is(_LF) && last.is(_CR) {";
"			pos += w";
"			continue";
"		}";
"";
"		// https://unicode.org/reports/tr29/#SB4";
"		if last.is(_ParaSep) {";
"			break";
"		}";
"";
"		// https://unicode.org/reports/tr29/#SB5";
"		if current.is(_Extend | _Format) {";
"			pos += w";
"			continue";
"		}";
"";
"		// SB5 applies to subsequent rules; there is an implied ""ignoring Extend & Format""";
"		// https://unicode.org/reports/tr29/#Sentence_Boundary_Rules";
"		// The previous/subsequent methods are shorthand for ""seek a property but skip over Extend & Format on the way""";
"";
"		// https://unicode.org/reports/tr29/#SB6";
"		if current.is(_Numeric) && lastExIgnore.is(_ATerm) {";
"			pos += w";
"			continue";
"		}";
"";
"		// https://unicode.org/reports/tr29/#SB7";
"		if current.is(_Upper) && lastExIgnore.is(_ATerm) && lastLastExIgnore.is(_Upper|_Lower) {";
"			pos += w";
"			continue";
"		}";
"";
"		// https://unicode.org/reports/tr29/#SB8";
"		if lastExIgnoreSpClose.is(_ATerm) {";
"			p := pos";
"";
"			// ( ¬(OLetter | Upper | Lower | ParaSep | SATerm) )*";
"			// Zero or more of not-the-above properties";
"			for p < len(data) {";
"				lookup, w := lookup(data[p:])";
"				if w == 0 {";
"					if atEOF {";
"						// Just return the bytes, we can't do anything with them";
"						pos = len(data)";
"						break main";
"					}";
"					// Rune extends past current data, request more";
"					return 0, empty, nil";
"				}";
"";
"				if lookup.is(_OLetter | _Upper | _Lower | _ParaSep | _SATerm) {";
"					break";
"				}";
"";
"				p += w";
"			}";
"";
"			advance, more := subsequent(_Lower, data[p:], atEOF)";
"";
"			if more {";
"				// Rune or token extends past current data, request more";
"				return 0, empty, nil";
"			}";
"";
"			if advance != notfound {";
"				pos = p + advance";
"				continue";
"			}";
"		}";
"";
"		// https://unicode.org/reports/tr29/#SB8a";
"		if current.is(_SContinue|_SATerm) && lastExIgnoreSpClose.is(_SATerm) {";
"			pos += w";
"			continue";
"		}";
"";
"		// https://unicode.org/reports/tr29/#SB9";
"		if current.is(_Close|_Sp|_ParaSep) && lastExIgnoreClose.is(_SATerm) {";
"			pos += w";
"			continue";
"		}";
"";
"		// https://unicode.org/reports/tr29/#SB10";
"		if current.is(_Sp|_ParaSep) && lastExIgnoreSpClose.is(_SATerm) {";
"			pos += w";
"			continue";
"		}";
"";
"		// https://unicode.org/reports/tr29/#SB11";
"		if lastExIgnore.is(_SATerm) ||";
"			(lastExIgnore.is(_Close) && lastExIgnoreClose.is(_SATerm)) ||";
"			(lastExIgnore.is(_Sp) && lastExIgnoreSpClose.is(_SATerm)) ||";
"			(lastExIgnore.is(_ParaSep) && lastExIgnoreParaSepSpClose.is(_SATerm)) {";
"			break";
"		}";
"";
"		// https://unicode.org/reports/tr29/#SB998";
"		pos += w";
"	}";
"";
"	// Return token";
"	return pos, data[:pos], nil";
"}"].

(** sentences/seek.go, 1034 bytes *)
Definition file_sentences_seek : list string := [
"package sentences";
"";
"const notfound = -1";
"";
"// subsequent looks ahead in the buffer until it hits a rune in properties,";
"// ignoring runes with the _Ignore property per SB5";
"func subsequent[T ~string | ~[]byte](properties property, data T, atEOF bool) (advance int, more bool) {";
"	i := 0";
"	for i < len(data) {";
"		lookup, w := lookup(data[i:])";
"		if w == 0 {";
"			if atEOF {";
"				// Nothing more to evaluate";
"				return notfound, false";
"			}";
"			// More to evaluate - return notfound to indicate no match found yet";
"			return notfound, true";
"		}";
"";
"		if lookup.is(_Ignore) {";
"			i += w";
"			continue";
"		}";
"";
"		if lookup.is(properties) {";
"			// Found it";
"			return i, false";
"		}";
"";
"		// If we see a non-ignored character that doesn't match,";
"		// the property is definitely not ""immediately subsequent""";
"		return notfound, false";
"	}";
"";
"	// If we reach here, we've only seen ignored characters or incomplete runes";
"	if atEOF {";
"		// Nothing more to evaluate";
"		return notfound, false";
"	}";
"";
"	// Need more - return notfound to indicate no match found yet";
"	return notfound, true";
"}"].

(** sentences/iterator.go, 3020 bytes *)
Definition file_sentences_iterator : list string := [
"package sentences";
"";
"// FromString returns an iterator for the sentences in the input string.";
"// Iterate while Next() is true, and access the sentence via Value().";
"func FromString(s string) *Iterator[string] {";
"	return &Iterator[string]{";
"		split: splitFuncString,";
"		data:  s,";
"	}";
"}";
"";
"// FromBytes returns an iterator for the sentences in the input bytes.";
"// Iterate while Next() is true, and access the sentence via Value().";
"func FromBytes(b []byte) *Iterator[[]byte] {";
"	return &Iterator[[]byte]{";
"		split: splitFuncBytes,";
"		data:  b,";
"	}";
"}";
"";
"// Iterator is a generic iterator for sentences in strings or byte slices.";
"type Iterator[T ~string | ~[]byte] struct {";
"	split func(T, bool) (int, T, error)";
"	data  T";
"	pos   int";
"	start int";
"}";
"";
"var (";
"	splitFuncString = splitFunc[string]";
"	splitFuncBytes  = splitFunc[[]byte]";
")";
"";
"// isASCIIAlphanumericOrSpace returns true if b is in [a-zA-Z0-9 ]";
"func isASCIIAlphanumericOrSpace(b byte) bool {";
"	return (b >= 'a' && b <= 'z') || (b >= 'A' && b <= 'Z') || (b >= '0' && b <= '9') || b == ' '";
"}";
"";
"// Next advances the iterator to the next sentence.";
"// Returns false when there are no more sentences.";
"func (iter *Iterator[T]) Next() bool {";
"	if iter.pos >= len(iter.data) {";
"		return false";
"	}";
"	iter.start = iter.pos";
"";
"	// ASCII hot path: skip contiguous ASCII alphanumerics and spaces";
"	// These characters never trigger sentence breaks by themselves";
"	for iter.pos < len(iter.data) && isASCIIAlphanumericOrSpace(iter.data[iter.pos]) {";
"		iter.pos++";
"	}";
"";
"	// If we consumed all remaining data, we're done";
"	if iter.pos >= len(iter.data) {";
"		return true";
"	}";
"";
"	// If we skipped any ASCII, back up one so splitfunc has ""last"" context";
"	if iter.pos > iter.start {";
"		iter.pos--";
"	}";
"";
"	// Defer to splitfunc for the rest";
"	remaining := iter.data[iter.pos:]";
"	advance, _, err := iter.split(remaining, true)";
"	if err != nil {";
"		panic(err)";
"	}";
"	if advance <= 0 {";
"		panic(""splitFunc returned a zero or negative advance"")";
"	}";
"	iter.pos += advance";
"	if iter.pos > len(iter.data) {";
"		panic(""splitFunc advanced beyond end of data"")";
"	}";
"	return true";
"}";
"";
"// Value returns the current sentence.";
"func (iter *Iterator[T]) Value() T {";
"	return iter.data[iter.start:iter.pos]";
"}";
"";
"// Start returns the byte position of the current sentence in the original data.";
"func (iter *Iterator[T]) Start() int {";
"	return iter.start";
"}";
"";
"// End returns the byte position after the current sentence in the original data.";
"func (iter *Iterator[T]) End() int {";
"	return iter.pos";
"}";
"";
"// Reset resets the iterator to the beginning of the data.";
"func (iter *Iterator[T]) Reset() {";
"	iter.start = 0";
"	iter.pos = 0";
"}";
"";
"// SetText sets the data for the iterator to operate on, and resets all state.";
"func (iter *Iterator[T]) SetText(data T) {";
"	iter.data = data";
"	iter.start = 0";
"	iter.pos = 0";
"}";
"";
"// First returns the first sentence without advancing the iterator.";
"func (iter *Iterator[T]) First() T {";
"	if len(iter.data) == 0 {";
"		return iter.data";
"	}";
"";
"	// Use a copy to leverage Next()'s ASCII optimization";
"	cp := *iter";
"	cp.pos = 0";
"	cp.start = 0";
"	cp.Next()";
"	return cp.Value()";
"}"].

(** phrases/splitfunc.go, 6176 bytes *)
Definition file_phrases_splitfunc : list string := [
"package phrases";
"";
"import (";
"	""bufio""";
")";
"";
"// is determines if lookup intersects propert(ies)";
"func (lookup property) is(properties property) bool {";
"	return (lookup & properties) != 0";
"}";
"";
"const (";
"	_AHLetter   = _ALetter | _HebrewLetter | _ExtendedPictographic // _ExtendedPictographic is added for phrases (vs words)";
"	_MidNumLetQ = _MidNumLet | _SingleQuote";
"	_Ignore     = _Extend | _Format | _ZWJ";
")";
"";
"// SplitFunc is a bufio.SplitFunc implementation of phrase segmentation, for use with bufio.Scanner.";
"var SplitFunc bufio.SplitFunc = splitFunc[[]byte]";
"";
"// splitFunc is a bufio.SplitFunc implementation of phrase segmentation, for use with bufio.Scanner.";
"func splitFunc[T ~string | ~[]byte](data T, atEOF bool) (advance int, token T, err error) {";
"	var empty T";
"	if len(data) == 0 {";
"		return 0, empty, nil";
"	}";
"";
"	// These vars are stateful across loop iterations";
"	var pos int";
"	var lastExIgnore property     // ""last excluding ignored categories""";
"	var lastLastExIgnore property // ""the last one before that""";
"	var regionalIndicatorCount int";
"";
"	// Rules are usually of the form Cat1 × Cat2; ""current"" refers to the first property";
"	// to the right of the ×, from which we look back or forward";
"";
"	current, w := lookup(data[pos:])";
"	if w == 0 {";
"		if !atEOF {";
"			// Rune extends past current data, request more";
"			return 0, empty, nil";
"		}";
"		pos = len(data)";
"		return pos, data[:pos], nil";
"	}";
"";
"	// https://unicode.org/reports/tr29/#WB1";
"	// Start of text always advances";
"	pos += w";
"";
"	for {";
"		eot := pos == len(data) // ""end of text""";
"";
"		if eot {";
"			if !atEOF {";
"				// Token extends past current data, request more";
"				return 0, empty, nil";
"			}";
"";
"			// https://unicode.org/reports/tr29/#WB2";
"			break";
"		}";
"";
"		// Remember previous properties to avoid lookups/lookbacks";
"		last := current";
"		if !last.is(_Ignore) {";
"			lastLastExIgnore = lastExIgnore";
"			lastExIgnore = last";
"		}";
"";
"		current, w = lookup(data[pos:])";
"		if w == 0 {";
"			if atEOF {";
"				// Just return the bytes, we can't do anything with them";
"				pos = len(data)";
"				break";
"			}";
"			// Rune extends past current data, request more";
"			return 0, empty, nil";
"		}";
"";
"		// Optimization: no rule can possibly apply";
"		if current|last == 0 { // i.e. both are zero";
"			break";
"		}";
"";
"		// https://unicode.org/reports/tr29/#WB3";
"		if current.is(_LF) && last.is(_CR) {";
"			pos += w";
"			continue";
"		}";
"";
"		// https://unicode.org/reports/tr29/#WB3a";
"		// https://unicode.org/reports/tr29/#WB3b";
"		if (last | current).is(_Newline | _CR | _LF) {";
"			break";
"		}";
"";
"		// https://unicode.org/reports/tr29/#WB3c";
"		if current.is(_ExtendedPictographic) && last.is(_ZWJ) {";
"			pos += w";
"			continue";
"		}";
"";
"		// https://unicode.org/reports/tr29/#WB3d";
"		if (current & last).is(_WSegSpace) {";
"			pos += w";
"			continue";
"		}";
"";
"		// https://unicode.org/reports/tr29/#WB4";
"		if current.is(_Extend | _Format | _ZWJ) {";
"			pos += w";
"			continue";
"		}";
"";
"		// WB4 applies to subsequent rules; there is an implied ""ignoring Extend & Format & ZWJ""";
"		// https://unicode.org/reports/tr29/#Grapheme_Cluster_and_Format_Rules";
"		// The previous/subsequent methods are shorthand for ""seek a property but skip over Extend|Format|ZWJ on the way""";
"";
"		// https://unicode.org/reports/tr29/#WB5";
"		if current.is(_AHLetter) && lastExIgnore.is(_AHLetter) {";
"			pos += w";
"			continue";
"		}";
"";
"		// https://unicode.org/reports/tr29/#WB6";
"		if current.is(_MidLetter|_MidNumLetQ) && lastExIgnore.is(_AHLetter) {";
"			advance, more := subsequent(_AHLetter, data[pos+w:], atEOF)";
"";
"			if more {";
"				// Token extends past current data, request more";
"				return 0, empty, nil";
"			}";
"";
"			if advance != notfound {";
"				pos += w + advance";
"				continue";
"			}";
"		}";
"";
"		// https://unicode.org/reports/tr29/#WB7";
"		if current.is(_AHLetter) && lastExIgnore.is(_MidLetter|_MidNumLetQ) && lastLastExIgnore.is(_AHLetter) {";
"			pos += w";
"			continue";
"		}";
"";
"		// https://unicode.org/reports/tr29/#WB7a";
"		if current.is(_SingleQuote) && lastExIgnore.is(_HebrewLetter) {";
"			pos += w";
"			continue";
"		}";
"";
"		// https://unicode.org/reports/tr29/#WB7b";
"		if current.is(_DoubleQuote) && lastExIgnore.is(_HebrewLetter) {";
"			advance, more := subsequent(_HebrewLetter, data[pos+w:], atEOF)";
"";
"			if more {";
"				// Token extends past current data, request more";
"				return 0, empty, nil";
"			}";
"";
"			if advance != notfound {";
"				pos += w + advance";
"				continue";
"			}";
"		}";
"";
"		// https://unicode.org/reports/tr29/#WB7c";
"		if current.is(_HebrewLetter) && lastExIgnore.is(_DoubleQuote) && lastLastExIgnore.is(_HebrewLetter) {";
"			pos += w";
"			continue";
"		}";
"";
"		// https://unicode.org/reports/tr29/#WB8";
"		// https://unicode.org/reports/tr29/#WB9";
"		// https://unicode.org/reports/tr29/#WB10";
"		// _WSegSpace is added for phrases: treat spaces adjacent to words as non-breaking.";
"		if current.is(_Numeric|_AHLetter|_WSegSpace) && lastExIgnore.is(_Numeric|_AHLetter|_WSegSpace) {";
"			pos += w";
"			continue";
"		}";
"";
"		// https://unicode.org/reports/tr29/#WB11";
"		if current.is(_Numeric) && lastExIgnore.is(_MidNum|_MidNumLetQ) && lastLastExIgnore.is(_Numeric) {";
"			pos += w";
"			continue";
"		}";
"";
"		// https://unicode.org/reports/tr29/#WB12";
"		if current.is(_MidNum|_MidNumLetQ) && lastExIgnore.is(_Numeric) {";
"			advance, more := subsequent(_Numeric, data[pos+w:], atEOF)";
"";
"			if more {";
"				// Token extends past current data, request more";
"				return 0, empty, nil";
"			}";
"";
"			if advance != notfound {";
"				pos += w + advance";
"				continue";
"			}";
"		}";
"";
"		// https://unicode.org/reports/tr29/#WB13";
"		if current.is(_Katakana) && lastExIgnore.is(_Katakana) {";
"			pos += w";
"			continue";
"		}";
"";
"		// https://unicode.org/reports/tr29/#WB13a";
"		if current.is(_ExtendNumLet) && lastExIgnore.is(_AHLetter|_Numeric|_Katakana|_ExtendNumLet) {";
"			pos += w";
"			continue";
"		}";
"";
"		// https://unicode.org/reports/tr29/#WB13b";
"		if current.is(_AHLetter|_Numeric|_Katakana) && lastExIgnore.is(_ExtendNumLet) {";
"			pos += w";
"			continue";
"		}";
"";
"		// https://unicode.org/reports/tr29/#WB15 and";
"		// https://unicode.org/reports/tr29/#WB16";
"		if current.is(_RegionalIndicator) && lastExIgnore.is(_RegionalIndicator) {";
"			regionalIndicatorCount++";
"";
"			odd := regionalIndicatorCount%2 == 1";
"			if odd {";
"				pos += w";
"				continue";
"			}";
"		}";
"";
"		// https://unicode.org/reports/tr29/#WB999";
"		// If we fall through all the above rules, it's a phrase break";
"		break";
"	}";
"";
"	return pos, data[:pos], nil";
"}"].

(** phrases/seek.go, 1032 bytes *)
Definition file_phrases_seek : list string := [
"package phrases";
"";
"const notfound = -1";
"";
"// subsequent looks ahead in the buffer until it hits a rune in properties,";
"// ignoring runes with the _Ignore property per WB4";
"func subsequent[T ~string | ~[]byte](properties property, data T, atEOF bool) (advance int, more bool) {";
"	i := 0";
"	for i < len(data) {";
"		lookup, w := lookup(data[i:])";
"		if w == 0 {";
"			if atEOF {";
"				// Nothing more to evaluate";
"				return notfound, false";
"			}";
"			// More to evaluate - return notfound to indicate no match found yet";
"			return notfound, true";
"		}";
"";
"		if lookup.is(_Ignore) {";
"			i += w";
"			continue";
"		}";
"";
"		if lookup.is(properties) {";
"			// Found it";
"			return i, false";
"		}";
"";
"		// If we see a non-ignored character that doesn't match,";
"		// the property is definitely not ""immediately subsequent""";
"		return notfound, false";
"	}";
"";
"	// If we reach here, we've only seen ignored characters or incomplete runes";
"	if atEOF {";
"		// Nothing more to evaluate";
"		return notfound, false";
"	}";
"";
"	// Need more - return notfound to indicate no match found yet";
"	return notfound, true";
"}"].

(** phrases/iterator.go, 3009 bytes *)
Definition file_phrases_iterator : list string := [
"package phrases";
"";
"// FromString returns an iterator for the phrases in the input string.";
"// Iterate while Next() is true, and access the phrase via Value().";
"func FromString(s string) *Iterator[string] {";
"	return &Iterator[string]{";
"		split: splitFuncString,";
"		data:  s,";
"	}";
"}";
"";
"// FromBytes returns an iterator for the phrases in the input bytes.";
"// Iterate while Next() is true, and access the phrase via Value().";
"func FromBytes(b []byte) *Iterator[[]byte] {";
"	return &Iterator[[]byte]{";
"		split: splitFuncBytes,";
"		data:  b,";
"	}";
"}";
"";
"// Iterator is a generic iterator for phrases in strings or byte slices.";
"type Iterator[T ~string | ~[]byte] struct {";
"	split func(T, bool) (int, T, error)";
"	data  T";
"	pos   int";
"	start int";
"}";
"";
"var (";
"	splitFuncString = splitFunc[string]";
"	splitFuncBytes  = splitFunc[[]byte]";
")";
"";
"// isASCIIAlphanumericOrSpace returns true if b is in [a-zA-Z0-9 ]";
"func isASCIIAlphanumericOrSpace(b byte) bool {";
"	return (b >= 'a' && b <= 'z') || (b >= 'A' && b <= 'Z') || (b >= '0' && b <= '9') || b == ' '";
"}";
"";
"// Next advances the iterator to the next phrase.";
"// Returns false when there are no more phrases.";
"func (iter *Iterator[T]) Next() bool {";
"	if iter.pos >= len(iter.data) {";
"		return false";
"	}";
"	iter.start = iter.pos";
"";
"	// ASCII hot path: skip contiguous ASCII alphanumerics and spaces";
"	// These characters are guaranteed to stay together in a phrase (per WB8-10)";
"	for iter.pos < len(iter.data) && isASCIIAlphanumericOrSpace(iter.data[iter.pos]) {";
"		iter.pos++";
"	}";
"";
"	// If we consumed all remaining data, we're done";
"	if iter.pos >= len(iter.data) {";
"		return true";
"	}";
"";
"	// If we skipped any ASCII, back up one so splitfunc has ""last"" context";
"	if iter.pos > iter.start {";
"		iter.pos--";
"	}";
"";
"	// Defer to splitfunc for the rest";
"	remaining := iter.data[iter.pos:]";
"	advance, _, err := iter.split(remaining, true)";
"	if err != nil {";
"		panic(err)";
"	}";
"	if advance <= 0 {";
"		panic(""splitFunc returned a zero or negative advance"")";
"	}";
"	iter.pos += advance";
"	if iter.pos > len(iter.data) {";
"		panic(""splitFunc advanced beyond end of data"")";
"	}";
"	return true";
"}";
"";
"// Value returns the current phrase.";
"func (iter *Iterator[T]) Value() T {";
"	return iter.data[iter.start:iter.pos]";
"}";
"";
"// Start returns the byte position of the current phrase in the original data.";
"func (iter *Iterator[T]) Start() int {";
"	return iter.start";
"}";
"";
"// End returns the byte position after the current phrase in the original data.";
"func (iter *Iterator[T]) End() int {";
"	return iter.pos";
"}";
"";
"// Reset resets the iterator to the beginning of the data.";
"func (iter *Iterator[T]) Reset() {";
"	iter.start = 0";
"	iter.pos = 0";
"}";
"";
"// SetText sets the data for the iterator to operate on, and resets all state.";
"func (iter *Iterator[T]) SetText(data T) {";
"	iter.data = data";
"	iter.start = 0";
"	iter.pos = 0";
"}";
"";
"// First returns the first phrase without advancing the iterator.";
"func (iter *Iterator[T]) First() T {";
"	if len(iter.data) == 0 {";
"		return iter.data";
"	}";
"";
"	// Use a copy to leverage Next()'s ASCII optimization";
"	cp := *iter";
"	cp.pos = 0";
"	cp.start = 0";
"	cp.Next()";
"	return cp.Value()";
"}"].

(** internal/iterators/iterator.go, 2445 bytes *)
Definition file_internal_iterator : list string := [
"package iterators";
"";
"type SplitFunc[T ~string | ~[]byte] func(T, bool) (int, T, error)";
"";
"// Iterator is a generic iterator for words that are either []byte or string.";
"// Iterate while Next() is true, and access the word via Value().";
"type Iterator[T ~string | ~[]byte] struct {";
"	split SplitFunc[T]";
"	data  T";
"	start int";
"	pos   int";
"}";
"";
"// New creates a new Iterator for the given data and SplitFunc.";
"func New[T ~string | ~[]byte](split SplitFunc[T], data T) *Iterator[T] {";
"	return &Iterator[T]{";
"		split: split,";
"		data:  data,";
"	}";
"}";
"";
"// SetText sets the text for the iterator to operate on, and resets all state.";
"func (iter *Iterator[T]) SetText(data T) {";
"	iter.data = data";
"	iter.start = 0";
"	iter.pos = 0";
"}";
"";
"// Split sets the SplitFunc for the Iterator.";
"func (iter *Iterator[T]) Split(split SplitFunc[T]) {";
"	iter.split = split";
"}";
"";
"// Next advances the iterator to the next token. It returns false when there";
"// are no remaining tokens or an error occurred.";
"func (iter *Iterator[T]) Next() bool {";
"	if iter.pos == len(iter.data) {";
"		return false";
"	}";
"	if iter.pos > len(iter.data) {";
"		panic(""SplitFunc advanced beyond the end of the data"")";
"	}";
"";
"	iter.start = iter.pos";
"	d := iter.data[iter.pos:]";
"";
"	if len(d) == 1 {";
"		// No need to split, just return the single byte";
"		iter.pos++";
"		return true";
"	}";
"";
"	advance, _, err := iter.split(d, true)";
"	if err != nil {";
"		panic(err)";
"	}";
"	if advance <= 0 {";
"		panic(""SplitFunc returned a zero or negative advance"")";
"	}";
"";
"	iter.pos += advance";
"	if iter.pos > len(iter.data) {";
"		panic(""SplitFunc advanced beyond the end of the data"")";
"	}";
"";
"	return true";
"}";
"";
"// Value returns the current token.";
"func (iter *Iterator[T]) Value() T {";
"	return iter.data[iter.start:iter.pos]";
"}";
"";
"// Start returns the byte position of the current token in the original data.";
"func (iter *Iterator[T]) Start() int {";
"	return iter.start";
"}";
"";
"// End returns the byte position after the current token in the original data.";
"func (iter *Iterator[T]) End() int {";
"	return iter.pos";
"}";
"";
"// Reset resets the iterator to the beginning of the data.";
"func (iter *Iterator[T]) Reset() {";
"	iter.start = 0";
"	iter.pos = 0";
"}";
"";
"func (iter *Iterator[T]) First() T {";
"	if len(iter.data) == 0 {";
"		return iter.data";
"	}";
"	advance, _, err := iter.split(iter.data, true)";
"	if err != nil {";
"		panic(err)";
"	}";
"	if advance <= 0 {";
"		panic(""SplitFunc returned a zero or negative advance"")";
"	}";
"	if advance > len(iter.data) {";
"		panic(""SplitFunc advanced beyond the end of the data"")";
"	}";
"	return iter.data[:advance]";
"}"].

(** internal/iterators/filter/filter.go, 528 bytes *)
Definition file_internal_filter_filter : list string := [
"package filter";
"";
"import (";
"	""unicode""";
"	""unicode/utf8""";
")";
"";
"type Func func([]byte) bool";
"";
"// AlphaNumeric is a filter which returns only tokens";
"// that contain a Letter or Number, as defined by Unicode.";
"var AlphaNumeric Func = func(token []byte) bool {";
"	pos := 0";
"	for pos < len(token) {";
"		r, w := utf8.DecodeRune(token[pos:])";
"		if unicode.IsLetter(r) || unicode.IsNumber(r) {";
"			// we use these methods instead of unicode.In for";
"			// performance; these methods have ASCII fast paths";
"			return true";
"		}";
"		pos += w";
"	}";
"";
"	return false";
"}"].

(** graphemes/reader.go, 610 bytes *)
Definition file_graphemes_reader : list string := [
"// Package graphemes implements Unicode grapheme cluster boundaries: https://unicode.org/reports/tr29/#Grapheme_Cluster_Boundaries";
"package graphemes";
"";
"import (";
"	""bufio""";
"	""io""";
")";
"";
"type Scanner struct {";
"	*bufio.Scanner";
"}";
"";
"// FromReader returns a Scanner, to split graphemes per";
"// https://unicode.org/reports/tr29/#Grapheme_Cluster_Boundaries.";
"//";
"// It embeds a [bufio.Scanner], so you can use its methods.";
"//";
"// Iterate through graphemes by calling Scan() until false, then check Err().";
"func FromReader(r io.Reader) *Scanner {";
"	sc := bufio.NewScanner(r)";
"	sc.Split(SplitFunc)";
"	return &Scanner{";
"		Scanner: sc,";
"	}";
"}"].

(** words/reader.go, 867 bytes *)
Definition file_words_reader : list string := [
"// Package words implements Unicode word boundaries: https://unicode.org/reports/tr29/#Word_Boundaries";
"package words";
"";
"import (";
"	""bufio""";
"	""io""";
")";
"";
"type Scanner struct {";
"	*bufio.Scanner";
"}";
"";
"// FromReader returns a Scanner, to split words per";
"// https://unicode.org/reports/tr29/#Word_Boundaries.";
"//";
"// It embeds a [bufio.Scanner], so you can use its methods.";
"//";
"// Iterate through words by calling Scan() until false, then check Err().";
"func FromReader(r io.Reader) *Scanner {";
"	s := bufio.NewScanner(r)";
"	s.Split(SplitFunc)";
"	sc := &Scanner{";
"		Scanner: s,";
"	}";
"	return sc";
"}";
"";
"// Joiners sets runes that should be treated like word characters, where";
"// otherwsie words sill be split. See the [Joiners] type.";
"func (sc *Scanner) Joiners(j *Joiners[[]byte]) {";
"	sc.Split(func(data []byte, atEOF bool) (advance int, token []byte, err error) {";
"		return j.splitFunc(data, atEOF)";
"	})";
"}"].

(** sentences/reader.go, 586 bytes *)
Definition file_sentences_reader : list string := [
"// Package sentences implements Unicode sentence boundaries: https://unicode.org/reports/tr29/#Sentence_Boundaries";
"package sentences";
"";
"import (";
"	""bufio""";
"	""io""";
")";
"";
"type Scanner struct {";
"	*bufio.Scanner";
"}";
"";
"// FromReader returns a Scanner, to split sentences per";
"// https://unicode.org/reports/tr29/#Sentence_Boundaries.";
"//";
"// It embeds a [bufio.Scanner], so you can use its methods.";
"//";
"// Iterate through sentences by calling Scan() until false, then check Err().";
"func FromReader(r io.Reader) *Scanner {";
"	sc := bufio.NewScanner(r)";
"	sc.Split(SplitFunc)";
"	return &Scanner{";
"		Scanner: sc,";
"	}";
"}"].

(** phrases/reader.go, 583 bytes *)
Definition file_phrases_reader : list string := [
"// Package phrases implements Unicode phrase boundaries: https://unicode.org/reports/tr29/#phrase_Boundaries";
"package phrases";
"";
"import (";
"	""bufio""";
"	""io""";
")";
"";
"type Scanner struct {";
"	*bufio.Scanner";
"}";
"";
"// FromReader returns a Scanner, to split phrases. ""Phrase"" is defined as";
"// a series of words separated only by spaces.";
"//";
"// It embeds a [bufio.Scanner], so you can use its methods.";
"//";
"// Iterate through phrases by calling Scan() until false, then check Err().";
"func FromReader(r io.Reader) *Scanner {";
"	sc := bufio.NewScanner(r)";
"	sc.Split(SplitFunc)";
"	return &Scanner{";
"		Scanner: sc,";
"	}";
"}"].
