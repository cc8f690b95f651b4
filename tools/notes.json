{
 "C31": {
  "note": "the README order read as nesting is false of the code; both counterexamples are proved (_refuted)"
 },
 "C32": {
  "note": "C32_truncated_refuted shows that the condition on b is needed"
 },
 "C14": {
  "note": "C14_stalled_prefix_refuted: after a stall (ErrNoProgress) the tokens need not be a prefix of those of the whole data; bufio.Scanner itself is modelled, it is not part of /repo"
 },
 "C37": {
  "note": "C37_space_refuted: with ' ' in Middle the ASCII fast path of the iterator ignores the joiner; proved for all other Joiners"
 },
 "C38": {
  "note": "C38_bypass_refuted: without the condition on f the fast path bypasses it"
 },
 "C35": {
  "note": "proved for every r in Middle that is not a line end and not U+0020; C35_mixed_refuted (letter+r+digit), C35_space_refuted and C35_line_end_refuted show the limits"
 },
 "C36": {
  "note": "proved for every r in Leading that is not Extend/Format/ZWJ; C36_ignored_refuted shows that those do not attach"
 },
 "C27": {
  "note": "proved for every u whose last character is not Prepend; C27_prepend_refuted shows that the condition is needed: after U+0600 the sequence is torn apart"
 },
 "C29": {
  "note": "Proved for the four packages, words with any joiners; with the AnsiEscapeSequences option of graphemes it is false (C29_ansi_refuted)."
 },
 "C42": {
  "note": "C42_wraparound_refuted: a SplitFunc returning an advance near 2^63 makes the position overflow; Next then returns true, though Value still panics. C42_next_panics excludes this case."
 },
 "C44": {
  "note": "with the proviso of the statement; C44_unconditional_refuted shows a CRC-64 collision that makes the tables wrong, so the proviso is needed"
 },
 "C49": {
  "note": "linear for graphemes without options, words and phrases; for sentences and graphemes with options linearity is false (_refuted) and a quadratic bound is proved"
 },
 "C50": {
  "note": "one token for graphemes, two for the others; the _refuted theorems show that fewer do not suffice, and that with the escape sequence option no number does"
 },
 "C51": {
  "note": "C51_graphemes and the like read the committed files themselves, so the extraction script for the tables is no longer trusted; gofmt is taken to change layout only; the bodies of the functions are skipped by the reader and compared as text; the _refuted theorems give families whose file does not compile"
 },
 "C52": {
  "note": "bufio.Scanner is modelled in Scanner.v, from its documented source; C52_too_long_refuted shows why ErrTooLong is excepted"
 },
 "C53": {
  "note": "GoSyntax.v reads Go, GoSem.v says what it means (the part of the language the packages use); the text is in CodeText.v and SourceGraphemes.v; the two arrays of trie.go are C51"
 },
 "C54": {
  "note": "as C53"
 },
 "C55": {
  "note": "as C53"
 },
 "C56": {
  "note": "what an iterator does after a client has recovered from a panic is in C42 for the model, not here"
 },
 "C57": {
  "note": "composition of C53 to C55 with C01 and C05 to C08"
 },
 "C58": {
  "note": "bufio.Scanner itself is the model of Scanner.v, not text; the joiners are not changed after the call of Joiners"
 },
 "C59": {
  "note": "C59_two_digits_refuted: code points of fewer than four digits are dropped without an error; the official files have none. strings.TrimSpace is arbitrary here"
 },
 "C60": {
  "note": "C60_comments_refuted: the condition on comments is needed; strconv.Quote is arbitrary here"
 },
 "C61": {
  "note": "a call is one step: goroutines that run two calls at the same moment are outside the model, but each call writes only to its own iterator and to new memory (ShareFacts.local)"
 },
 "C62": {
  "note": "appending to a token is refuted (C62_append_refuted); the client writes only to tokens, not to text still to come"
 },
 "C63": {
  "note": "two tokens (graphemes: one) and three bytes must be shorter than the maximum; one token is refuted for words, sentences and phrases, and so is fewer than three bytes"
 },
 "C64": {
  "note": "the size of the buffer; with one token as measure it is refuted for words"
 },
 "C65": {
  "note": "a second, independent specification of grapheme clusters"
 },
 "C66": {
  "note": "what the rules amount to on plain text, with no Unicode properties in the ASCII statements"
 },
 "C67": {
  "note": "C67_tail_undoes_refuted: a truncated last character can undo a sentence boundary before it"
 },
 "C68": {
  "note": "C68_case_sentences_refuted: sentences look at the case"
 },
 "C69": {
  "note": "Well-formed text."
 },
 "C70": {
  "note": "The decomposition mappings themselves are no part of the repository: the theorem is about every respelling of the kind described (SpecMarks.respells). Characters that take no marks here: spaces, line ends, regional indicators, jamo, prepended characters and joiners, after which marks do move boundaries."
 },
 "C71": {
  "note": "Memory accesses are atomic and take effect in the order of the schedule. That is what Go guarantees to programs without data races, and that there are none is part of the claim. A race is taken struct by struct, which is coarser than field by field, so its absence is stronger. Texts are values: the packages never write to them (C62 has the array). Functions the client passes to Split are mathematical functions."
 },
 "C72": {
  "note": "Memory is that of the interpreter: a list of structs. Every struct variable and every &T{} adds one, so the local copy in First and the empty Joiners in splitFunc of words are counted although Go's compiler keeps them on the stack; for these C72_constant_memory shows that they cannot be found afterwards, and C72_no_allocations leaves them out. Conversions between string and []byte, the only other way to take memory in the part of Go the interpreter covers, are searched for in the text (C72_no_conversions). The stack, the boxes Go may make for any(data) and the texts themselves are not modelled."
 },
 "C73": {
  "note": "canon but is the equivalence generated by single canonical mappings (those of the characters in but left out), Hangul decomposition and the exchange of neighbouring marks whose classes are neither 0 nor in order; canon [] is canonical equivalence. The mappings and classes (SpecDecomp.v) are those of Unicode 15, from Perl's Unicode::UCD, as /repo has none; characters assigned later have no mapping here. That NFC and NFD are canonically equivalent to the text is not stated: it is part of their definition. The full equivalence fails for graphemes, words and phrases (C73_arrow_graphemes_refuted, C73_arrow_words_refuted): the rules of UAX #29 themselves say so."
 },
 "C74": {
  "note": "nfd is defined as in the standard (full decomposition, then sorting of marks); C74_form shows that it is a normal form of the equivalence of C73. The data are those of SpecDecomp.v (Unicode 15). NFC is not defined; a text and its NFC have the same NFD, so C74_same_form is about them."
 },
 "C75": {
  "note": "Simple case mappings (one character to one), from the Unicode 15 data of the Perl installed here; Go's strings.ToLower, ToUpper and ToTitle apply such a table rune by rune. Full mappings (one to several) are left out. C75_exceptions_refuted shows that each excepted character is needed. C68 says the same of ASCII letters among arbitrary bytes."
 },
 "C76": {
  "note": "SpecUcd15.v comes from Perl's copy of the Unicode Character Database 15.0 (tools/gen_ucd15.py); the lists of changes in SpecSince.v are the differences found, and have not been checked against the Unicode 17 files, which are not available here. Of characters added after 15.0 nothing is said. SpecUcd.v, which C05 to C08 and C10 use, was obtained from the tries; this theorem ties it to an independent source."
 },
 "C77": {
  "note": "The Scanner is the model of bufio.Scanner (Scanner.v) with a step count (CountScanner.v, C77_counts: same results for every SplitFunc and reader). Joiners: without a space among the middle ones, as in C37."
 },
 "C78": {
  "note": "NFC is defined in SpecNfc.v from the decompositions of SpecDecomp.v and the composition exclusions of Unicode 15.0 (from Perl). C78_form shows that it is a normal form of canonical equivalence and closed under taking parts; it was also compared, outside Coq, with Perl's Unicode::Normalize on all characters with a decomposition and on 1500 random strings. C78_arrow_refuted: the exception."
 },
 "C79": {
  "note": "The line ends are those of the Newline Guidelines of the standard (section 5.8), without form feed and vertical tab; C79_form_feed_refuted shows why those are left out."
 },
 "C80": {
  "note": "The classes are those of the standard (WB and SB of SpecUcd.v: Extend and Format). C80_space_refuted and C80_graphemes_refuted show that the exceptions are needed."
 },
 "C81": {
  "note": "The template text is that of print.go, copied line by line (SourcePrint.v) and cut out of the Go file in Coq (raw_const). Template.v models the part of text/template in use; anything else does not parse. Integers are not negative; when an action fails the result is None."
 },
 "C82": {
  "note": "computeOffsets is that of C44. The constructor that takes a handle is only a comment in the template (C81); it is modelled as that comment says. Options (compacters) are those of C83. C82_handles_refuted: the handle type is chosen from the block numbers of the index and the values, not from where the ASCII blocks begin."
 },
 "C83": {
  "note": "A Compacter is a deterministic function of the blocks it has stored; Size has no effect and the function named by Handler does not panic. What a Compacter prints is not modelled, only what the named function returns. C83_lookup and C83_types assume that the handles take at most 0xF0000000 numbers; C83_offsets_refuted shows that some bound is needed."
 },
 "C84": {
  "note": "The shapes of emoji are those of UTS #51, with any number of modifiers; which are in use by fonts is not modelled. C84_words_refuted: keycaps in a row, and pictographs that are letters, are one word. C84_flag_refuted: a flag after a single regional indicator is torn apart. Sentences are not covered: U+203C and U+2049 are pictographs and end a sentence."
 },
 "C85": {
  "note": "For valid UTF-8, without joiners and ANSI options. C85_ill_formed_refuted: not so for ill-formed text. C85_prepend_refuted: text put in front can make a boundary."
 },
 "C86": {
  "note": "Spaces are the characters with Word_Break=WSegSpace, written out as a list; C86_spaces shows the list complete. C86_refuted: sentences and phrases reach over spaces."
 },
 "C87": {
  "note": "By induction from C25, C26 and C27. C87_graphemes_refuted: the remaining tokens need not be the graphemes of the remaining text, when a sequence stands between a letter and its accent."
 },
 "C88": {
  "note": "Both directions, and the cut of any text by longest match of the grammar. C88_joiner_refuted: a joiner holds a pictograph to any word, so such texts are outside the grammar."
 },
 "C89": {
  "note": "Both directions, and the cut of any text by longest match of the grammar. C89_joiner_refuted: after a bracket a joiner holds a pictograph too, so such texts are outside the grammar."
 },
 "C90": {
  "note": "Necessary conditions for every boundary, a sufficient condition where a space stands before it, and texts of one sentence. C90_terminator_refuted: a terminator alone does not end a sentence (3.5), and after an exclamation mark a small letter may begin one."
 },
 "C91": {
  "note": "An editor can re-segment only around an edit. C91_near_refuted: one character on each side is not enough in general."
 },
 "C92": {
  "note": "From C91 and C48. C92_stretch_refuted: without a settling character the stretch alone does not tell."
 },
 "C93": {
  "note": "An if and only if, stated on the text with its marks; it implies the conditions of C90."
 },
 "C94": {
  "note": "From C35, C48 and the summary of C91. Leading joiners are not covered. C94_joiner_refuted: a joiner itself settles nothing."
 }
}