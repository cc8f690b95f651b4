{
 "claims": [
  {
   "property": "C01",
   "status": "proved",
   "theorems": [
    "C01_graphemes_lossless"
   ],
   "note": ""
  },
  {
   "property": "C02",
   "status": "proved",
   "theorems": [
    "C02_words_lossless",
    "C02_words_lossless_joiners"
   ],
   "note": ""
  },
  {
   "property": "C03",
   "status": "proved",
   "theorems": [
    "C03_sentences_lossless"
   ],
   "note": ""
  },
  {
   "property": "C04",
   "status": "proved",
   "theorems": [
    "C04_phrases_lossless"
   ],
   "note": ""
  },
  {
   "property": "C05",
   "status": "proved",
   "theorems": [
    "C05_graphemes_are_uax29"
   ],
   "note": ""
  },
  {
   "property": "C06",
   "status": "proved",
   "theorems": [
    "C06_words_are_uax29"
   ],
   "note": ""
  },
  {
   "property": "C07",
   "status": "proved",
   "theorems": [
    "C07_sentences_are_uax29"
   ],
   "note": ""
  },
  {
   "property": "C08",
   "status": "proved",
   "theorems": [
    "C08_phrases_are_tailored_words"
   ],
   "note": ""
  },
  {
   "property": "C09",
   "status": "proved",
   "theorems": [
    "C09_graphemes_lookup_total",
    "C09_words_lookup_total",
    "C09_sentences_lookup_total",
    "C09_phrases_lookup_total"
   ],
   "note": ""
  },
  {
   "property": "C10",
   "status": "proved",
   "theorems": [
    "C10_graphemes_lookup",
    "C10_words_lookup",
    "C10_sentences_lookup",
    "C10_phrases_lookup",
    "C10_graphemes_only",
    "C10_words_only",
    "C10_sentences_only",
    "C10_phrases_only"
   ],
   "note": ""
  },
  {
   "property": "C11",
   "status": "proved",
   "theorems": [
    "C11_graphemes_contract",
    "C11_words_contract",
    "C11_sentences_contract",
    "C11_phrases_contract"
   ],
   "note": ""
  },
  {
   "property": "C12",
   "status": "proved",
   "theorems": [
    "C12_graphemes_final",
    "C12_words_final",
    "C12_sentences_final",
    "C12_phrases_final"
   ],
   "note": ""
  },
  {
   "property": "C13",
   "status": "proved",
   "theorems": [
    "C13_graphemes",
    "C13_words",
    "C13_sentences",
    "C13_phrases",
    "C13_graphemes_short",
    "C13_words_short",
    "C13_sentences_short",
    "C13_phrases_short"
   ],
   "note": ""
  },
  {
   "property": "C14",
   "status": "proved",
   "theorems": [
    "C14_graphemes",
    "C14_words",
    "C14_sentences",
    "C14_phrases",
    "C14_stalled_prefix_refuted"
   ],
   "note": "C14_stalled_prefix_refuted: after a stall (ErrNoProgress) the tokens need not be a prefix of those of the whole data; bufio.Scanner itself is modelled, it is not part of /repo"
  },
  {
   "property": "C15",
   "status": "proved",
   "theorems": [
    "C15_words_hot_path"
   ],
   "note": ""
  },
  {
   "property": "C16",
   "status": "proved",
   "theorems": [
    "C16_graphemes_hot_path"
   ],
   "note": ""
  },
  {
   "property": "C17",
   "status": "proved",
   "theorems": [
    "C17_sentences_hot_path"
   ],
   "note": ""
  },
  {
   "property": "C18",
   "status": "proved",
   "theorems": [
    "C18_phrases_hot_path"
   ],
   "note": ""
  },
  {
   "property": "C19",
   "status": "proved",
   "theorems": [
    "C19_graphemes_consistent",
    "C19_words_consistent",
    "C19_sentences_consistent",
    "C19_phrases_consistent"
   ],
   "note": ""
  },
  {
   "property": "C20",
   "status": "proved",
   "theorems": [
    "C20_graphemes_reset",
    "C20_words_reset",
    "C20_sentences_reset",
    "C20_phrases_reset",
    "C20_graphemes_settext",
    "C20_words_settext",
    "C20_sentences_settext",
    "C20_phrases_settext"
   ],
   "note": ""
  },
  {
   "property": "C21",
   "status": "proved",
   "theorems": [
    "C21_graphemes_first",
    "C21_words_first",
    "C21_sentences_first",
    "C21_phrases_first"
   ],
   "note": ""
  },
  {
   "property": "C22",
   "status": "proved",
   "theorems": [
    "C22_graphemes_exhaustion",
    "C22_words_exhaustion",
    "C22_sentences_exhaustion",
    "C22_phrases_exhaustion"
   ],
   "note": ""
  },
  {
   "property": "C23",
   "status": "proved",
   "theorems": [
    "C23_sequence",
    "C23_exact",
    "C23_unique"
   ],
   "note": ""
  },
  {
   "property": "C24",
   "status": "proved",
   "theorems": [
    "C24_sequence",
    "C24_exact",
    "C24_unique"
   ],
   "note": ""
  },
  {
   "property": "C25",
   "status": "proved",
   "theorems": [
    "C25_flag7",
    "C25_flag8"
   ],
   "note": ""
  },
  {
   "property": "C26",
   "status": "proved",
   "theorems": [
    "C26_cut_out"
   ],
   "note": ""
  },
  {
   "property": "C27",
   "status": "proved",
   "theorems": [
    "C27_cut_out",
    "C27_prepend_refuted"
   ],
   "note": "proved for every u whose last character is not Prepend; C27_prepend_refuted shows that the condition is needed: after U+0600 the sequence is torn apart"
  },
  {
   "property": "C28",
   "status": "proved",
   "theorems": [
    "C28_graphemes_well_formed",
    "C28_words_well_formed",
    "C28_sentences_well_formed",
    "C28_phrases_well_formed"
   ],
   "note": ""
  },
  {
   "property": "C29",
   "status": "proved",
   "theorems": [
    "C29_graphemes",
    "C29_words",
    "C29_words_plain",
    "C29_sentences",
    "C29_phrases",
    "C29_ansi_refuted"
   ],
   "note": "Proved for the four packages, words with any joiners; with the AnsiEscapeSequences option of graphemes it is false (C29_ansi_refuted)."
  },
  {
   "property": "C30",
   "status": "proved",
   "theorems": [
    "C30_phrases_are_made_of_words"
   ],
   "note": ""
  },
  {
   "property": "C31",
   "status": "proved",
   "theorems": [
    "C31_sentences_phrases_refuted",
    "C31_words_graphemes_refuted"
   ],
   "note": "the README order read as nesting is false of the code; both counterexamples are proved (_refuted)"
  },
  {
   "property": "C32",
   "status": "proved",
   "theorems": [
    "C32_graphemes_line_by_line",
    "C32_words_line_by_line",
    "C32_sentences_line_by_line",
    "C32_phrases_line_by_line",
    "C32_truncated_refuted"
   ],
   "note": "C32_truncated_refuted shows that the condition on b is needed"
  },
  {
   "property": "C33",
   "status": "proved",
   "theorems": [
    "C33_iterator",
    "C33_scanner"
   ],
   "note": ""
  },
  {
   "property": "C34",
   "status": "proved",
   "theorems": [
    "C34_iterator",
    "C34_splitfunc"
   ],
   "note": ""
  },
  {
   "property": "C35",
   "status": "proved",
   "theorems": [
    "C35_exact",
    "C35_context",
    "C35_one_token",
    "C35_mixed_refuted",
    "C35_space_refuted",
    "C35_line_end_refuted"
   ],
   "note": "proved for every r in Middle that is not a line end and not U+0020; C35_mixed_refuted (letter+r+digit), C35_space_refuted and C35_line_end_refuted show the limits"
  },
  {
   "property": "C36",
   "status": "proved",
   "theorems": [
    "C36_context",
    "C36_one_token",
    "C36_ignored_refuted"
   ],
   "note": "proved for every r in Leading that is not Extend/Format/ZWJ; C36_ignored_refuted shows that those do not attach"
  },
  {
   "property": "C37",
   "status": "proved",
   "theorems": [
    "C37_agree",
    "C37_space_refuted"
   ],
   "note": "C37_space_refuted: with ' ' in Middle the ASCII fast path of the iterator ignores the joiner; proved for all other Joiners"
  },
  {
   "property": "C38",
   "status": "proved",
   "theorems": [
    "C38_split",
    "C38_split_no_ascii",
    "C38_bypass_refuted"
   ],
   "note": "C38_bypass_refuted: without the condition on f the fast path bypasses it"
  },
  {
   "property": "C39",
   "status": "proved",
   "theorems": [
    "C39_numeric"
   ],
   "note": ""
  },
  {
   "property": "C40",
   "status": "proved",
   "theorems": [
    "C40_ideographic"
   ],
   "note": ""
  },
  {
   "property": "C41",
   "status": "proved",
   "theorems": [
    "C41_runes",
    "C41_alphanumeric",
    "C41_text"
   ],
   "note": ""
  },
  {
   "property": "C42",
   "status": "proved",
   "theorems": [
    "C42_tokens",
    "C42_first",
    "C42_no_wrong_token",
    "C42_next_panics",
    "C42_first_panics",
    "C42_overrun_sticks",
    "C42_packages",
    "C42_wraparound_refuted"
   ],
   "note": "C42_wraparound_refuted: a SplitFunc returning an advance near 2^63 makes the position overflow; Next then returns true, though Value still panics. C42_next_panics excludes this case."
  },
  {
   "property": "C43",
   "status": "proved",
   "theorems": [
    "C43_graphemes_crlf",
    "C43_words_crlf",
    "C43_sentences_crlf",
    "C43_phrases_crlf",
    "C43_graphemes_after_lf",
    "C43_words_after_lf",
    "C43_sentences_after_lf",
    "C43_phrases_after_lf",
    "C43_graphemes_before_lf",
    "C43_words_before_lf",
    "C43_phrases_before_lf"
   ],
   "note": ""
  },
  {
   "property": "C44",
   "status": "proved",
   "theorems": [
    "C44_lookup",
    "C44_insert",
    "C44_order",
    "C44_unconditional_refuted"
   ],
   "note": "with the proviso of the statement; C44_unconditional_refuted shows a CRC-64 collision that makes the tables wrong, so the proviso is needed"
  },
  {
   "property": "C45",
   "status": "proved",
   "theorems": [
    "C45_deterministic",
    "C45_tables"
   ],
   "note": ""
  },
  {
   "property": "C46",
   "status": "proved",
   "theorems": [
    "C46_graphemes",
    "C46_words",
    "C46_sentences",
    "C46_phrases"
   ],
   "note": ""
  },
  {
   "property": "C47",
   "status": "proved",
   "theorems": [
    "C47_parse",
    "C47_graphemes",
    "C47_words",
    "C47_sentences",
    "C47_phrases",
    "C47_last_line_refuted",
    "C47_semicolon_refuted"
   ],
   "note": ""
  },
  {
   "property": "C48",
   "status": "proved",
   "theorems": [
    "C48_graphemes",
    "C48_words",
    "C48_words_plain",
    "C48_sentences",
    "C48_phrases",
    "C48_words_refuted",
    "C48_graphemes_refuted"
   ],
   "note": ""
  },
  {
   "property": "C49",
   "status": "proved",
   "theorems": [
    "C49_counts",
    "C49_graphemes",
    "C49_words",
    "C49_phrases",
    "C49_sentences",
    "C49_graphemes_ansi",
    "C49_sentences_refuted",
    "C49_graphemes_ansi_refuted"
   ],
   "note": "linear for graphemes without options, words and phrases; for sentences and graphemes with options linearity is false (_refuted) and a quadratic bound is proved"
  },
  {
   "property": "C50",
   "status": "proved",
   "theorems": [
    "C50_graphemes",
    "C50_words",
    "C50_words_plain",
    "C50_sentences",
    "C50_phrases",
    "C50_graphemes_last_refuted",
    "C50_words_last_refuted",
    "C50_sentences_last_refuted",
    "C50_phrases_last_refuted",
    "C50_graphemes_ansi_refuted"
   ],
   "note": "one token for graphemes, two for the others; the _refuted theorems show that fewer do not suffice, and that with the escape sequence option no number does"
  },
  {
   "property": "C51",
   "status": "proved",
   "theorems": [
    "C51_array_of",
    "C51_written",
    "C51_graphemes",
    "C51_words",
    "C51_sentences",
    "C51_phrases",
    "C51_graphemes_written",
    "C51_words_written",
    "C51_sentences_written",
    "C51_phrases_written",
    "C51_few",
    "C51_any_refuted",
    "C51_names_refuted"
   ],
   "note": "C51_graphemes and the like read the committed files themselves, so the extraction script for the tables is no longer trusted; gofmt is taken to change layout only; the bodies of the functions are skipped by the reader and compared as text; the _refuted theorems give families whose file does not compile"
  },
  {
   "property": "C52",
   "status": "proved",
   "theorems": [
    "C52_graphemes",
    "C52_words",
    "C52_sentences",
    "C52_phrases",
    "C52_too_long_refuted",
    "C52_before",
    "C52_after"
   ],
   "note": "bufio.Scanner is modelled in Scanner.v, from its documented source; C52_too_long_refuted shows why ErrTooLong is excepted"
  },
  {
   "property": "C53",
   "status": "proved",
   "theorems": [
    "C53_graphemes"
   ],
   "note": "GoSyntax.v reads Go, GoSem.v says what it means (the part of the language the packages use); the text is in CodeText.v and SourceGraphemes.v; the two arrays of trie.go are C51"
  },
  {
   "property": "C54",
   "status": "proved",
   "theorems": [
    "C54_sentences",
    "C54_phrases"
   ],
   "note": "as C53"
  },
  {
   "property": "C55",
   "status": "proved",
   "theorems": [
    "C55_words"
   ],
   "note": "as C53"
  },
  {
   "property": "C56",
   "status": "proved",
   "theorems": [
    "C56_iterators",
    "C56_words_split",
    "C56_filter"
   ],
   "note": "what an iterator does after a client has recovered from a panic is in C42 for the model, not here"
  },
  {
   "property": "C57",
   "status": "proved",
   "theorems": [
    "C57_graphemes",
    "C57_words",
    "C57_sentences",
    "C57_phrases"
   ],
   "note": "composition of C53 to C55 with C01 and C05 to C08"
  },
  {
   "property": "C58",
   "status": "proved",
   "theorems": [
    "C58_graphemes",
    "C58_words",
    "C58_sentences",
    "C58_phrases",
    "C58_words_joiners"
   ],
   "note": "bufio.Scanner itself is the model of Scanner.v, not text; the joiners are not changed after the call of Joiners"
  },
  {
   "property": "C59",
   "status": "proved",
   "theorems": [
    "C59_generate",
    "C59_graphemes",
    "C59_words",
    "C59_sentences",
    "C59_empty_line",
    "C59_two_digits_refuted"
   ],
   "note": "C59_two_digits_refuted: code points of fewer than four digits are dropped without an error; the official files have none. strings.TrimSpace is arbitrary here"
  },
  {
   "property": "C60",
   "status": "proved",
   "theorems": [
    "C60_source",
    "C60_write",
    "C60_comments_refuted"
   ],
   "note": "C60_comments_refuted: the condition on comments is needed; strconv.Quote is arbitrary here"
  },
  {
   "property": "C61",
   "status": "proved",
   "theorems": [
    "C61_undisturbed",
    "C61_ends"
   ],
   "note": "a call is one step: goroutines that run two calls at the same moment are outside the model, but each call writes only to its own iterator and to new memory (ShareFacts.local)"
  },
  {
   "property": "C62",
   "status": "proved",
   "theorems": [
    "C62_graphemes",
    "C62_words",
    "C62_sentences",
    "C62_phrases",
    "C62_graphemes_in_place",
    "C62_words_in_place",
    "C62_sentences_in_place",
    "C62_phrases_in_place",
    "C62_reader",
    "C62_append_refuted"
   ],
   "note": "appending to a token is refuted (C62_append_refuted); the client writes only to tokens, not to text still to come"
  },
  {
   "property": "C63",
   "status": "proved",
   "theorems": [
    "C63_graphemes",
    "C63_words",
    "C63_sentences",
    "C63_phrases",
    "C63_joiners",
    "C63_one_word_refuted",
    "C63_one_sentence_refuted",
    "C63_one_phrase_refuted",
    "C63_three_bytes_refuted"
   ],
   "note": "two tokens (graphemes: one) and three bytes must be shorter than the maximum; one token is refuted for words, sentences and phrases, and so is fewer than three bytes"
  },
  {
   "property": "C64",
   "status": "proved",
   "theorems": [
    "C64_graphemes",
    "C64_words",
    "C64_sentences",
    "C64_phrases",
    "C64_joiners",
    "C64_limit",
    "C64_one_word_refuted"
   ],
   "note": "the size of the buffer; with one token as measure it is refuted for words"
  },
  {
   "property": "C65",
   "status": "proved",
   "theorems": [
    "C65_longest",
    "C65_one",
    "C65_ascii"
   ],
   "note": "a second, independent specification of grapheme clusters"
  },
  {
   "property": "C66",
   "status": "proved",
   "theorems": [
    "C66_words",
    "C66_phrases",
    "C66_sentences",
    "C66_ascii_words",
    "C66_ascii_phrases",
    "C66_ascii_sentences"
   ],
   "note": "what the rules amount to on plain text, with no Unicode properties in the ASCII statements"
  },
  {
   "property": "C67",
   "status": "proved",
   "theorems": [
    "C67_units",
    "C67_graphemes",
    "C67_words",
    "C67_phrases",
    "C67_joiners",
    "C67_sentences",
    "C67_sentences_tail",
    "C67_tail_undoes_refuted"
   ],
   "note": "C67_tail_undoes_refuted: a truncated last character can undo a sentence boundary before it"
  },
  {
   "property": "C68",
   "status": "proved",
   "theorems": [
    "C68_graphemes",
    "C68_words",
    "C68_phrases",
    "C68_sentences",
    "C68_rename_graphemes",
    "C68_rename_words",
    "C68_rename_phrases",
    "C68_rename_sentences",
    "C68_case_sentences_refuted"
   ],
   "note": "C68_case_sentences_refuted: sentences look at the case"
  },
  {
   "property": "C69",
   "status": "proved",
   "theorems": [
    "C69_graphemes",
    "C69_words",
    "C69_sentences",
    "C69_phrases",
    "C69_spelling"
   ],
   "note": "Well-formed text."
  },
  {
   "property": "C70",
   "status": "proved",
   "theorems": [
    "C70_graphemes",
    "C70_words",
    "C70_phrases",
    "C70_sentences"
   ],
   "note": "The decomposition mappings themselves are no part of the repository: the theorem is about every respelling of the kind described (SpecMarks.respells). Characters that take no marks here: spaces, line ends, regional indicators, jamo, prepended characters and joiners, after which marks do move boundaries."
  },
  {
   "property": "C71",
   "status": "proved",
   "theorems": [
    "C71_steps",
    "C71_independent",
    "C71_packages",
    "C71_answers",
    "C71_joiners"
   ],
   "note": "Memory accesses are atomic and take effect in the order of the schedule. That is what Go guarantees to programs without data races, and that there are none is part of the claim. A race is taken struct by struct, which is coarser than field by field, so its absence is stronger. Texts are values: the packages never write to them (C62 has the array). Functions the client passes to Split are mathematical functions."
  },
  {
   "property": "C72",
   "status": "proved",
   "theorems": [
    "C72_no_allocations",
    "C72_constant_memory",
    "C72_no_conversions"
   ],
   "note": "Memory is that of the interpreter: a list of structs. Every struct variable and every &T{} adds one, so the local copy in First and the empty Joiners in splitFunc of words are counted although Go's compiler keeps them on the stack; for these C72_constant_memory shows that they cannot be found afterwards, and C72_no_allocations leaves them out. Conversions between string and []byte, the only other way to take memory in the part of Go the interpreter covers, are searched for in the text (C72_no_conversions). The stack, the boxes Go may make for any(data) and the texts themselves are not modelled."
  },
  {
   "property": "C73",
   "status": "proved",
   "theorems": [
    "C73_graphemes",
    "C73_words",
    "C73_phrases",
    "C73_sentences",
    "C73_arrow_graphemes_refuted",
    "C73_arrow_words_refuted"
   ],
   "note": "canon but is the equivalence generated by single canonical mappings (those of the characters in but left out), Hangul decomposition and the exchange of neighbouring marks whose classes are neither 0 nor in order; canon [] is canonical equivalence. The mappings and classes (SpecDecomp.v) are those of Unicode 15, from Perl's Unicode::UCD, as /repo has none; characters assigned later have no mapping here. That NFC and NFD are canonically equivalent to the text is not stated: it is part of their definition. The full equivalence fails for graphemes, words and phrases (C73_arrow_graphemes_refuted, C73_arrow_words_refuted): the rules of UAX #29 themselves say so."
  },
  {
   "property": "C74",
   "status": "proved",
   "theorems": [
    "C74_form",
    "C74_graphemes",
    "C74_words",
    "C74_phrases",
    "C74_sentences",
    "C74_same_form",
    "C74_arrow_refuted"
   ],
   "note": "nfd is defined as in the standard (full decomposition, then sorting of marks); C74_form shows that it is a normal form of the equivalence of C73. The data are those of SpecDecomp.v (Unicode 15). NFC is not defined; a text and its NFC have the same NFD, so C74_same_form is about them."
  },
  {
   "property": "C75",
   "status": "proved",
   "theorems": [
    "C75_lower",
    "C75_upper",
    "C75_title",
    "C75_sentences_lower",
    "C75_sentences_upper",
    "C75_sentences_title",
    "C75_exceptions_refuted"
   ],
   "note": "Simple case mappings (one character to one), from the Unicode 15 data of the Perl installed here; Go's strings.ToLower, ToUpper and ToTitle apply such a table rune by rune. Full mappings (one to several) are left out. C75_exceptions_refuted shows that each excepted character is needed. C68 says the same of ASCII letters among arbitrary bytes."
  },
  {
   "property": "C76",
   "status": "proved",
   "theorems": [
    "C76_words",
    "C76_phrases",
    "C76_sentences",
    "C76_graphemes"
   ],
   "note": "SpecUcd15.v comes from Perl's copy of the Unicode Character Database 15.0 (tools/gen_ucd15.py); the lists of changes in SpecSince.v are the differences found, and have not been checked against the Unicode 17 files, which are not available here. Of characters added after 15.0 nothing is said. SpecUcd.v, which C05 to C08 and C10 use, was obtained from the tries; this theorem ties it to an independent source."
  },
  {
   "property": "C77",
   "status": "proved",
   "theorems": [
    "C77_counts",
    "C77_counts_all",
    "C77_graphemes",
    "C77_joiners",
    "C77_words",
    "C77_phrases",
    "C77_sentences",
    "C77_iterating"
   ],
   "note": "The Scanner is the model of bufio.Scanner (Scanner.v) with a step count (CountScanner.v, C77_counts: same results for every SplitFunc and reader). Joiners: without a space among the middle ones, as in C37."
  },
  {
   "property": "C78",
   "status": "proved",
   "theorems": [
    "C78_form",
    "C78_graphemes",
    "C78_words",
    "C78_phrases",
    "C78_sentences",
    "C78_arrow_refuted"
   ],
   "note": "NFC is defined in SpecNfc.v from the decompositions of SpecDecomp.v and the composition exclusions of Unicode 15.0 (from Perl). C78_form shows that it is a normal form of canonical equivalence and closed under taking parts; it was also compared, outside Coq, with Perl's Unicode::Normalize on all characters with a decomposition and on 1500 random strings. C78_arrow_refuted: the exception."
  },
  {
   "property": "C79",
   "status": "proved",
   "theorems": [
    "C79_graphemes",
    "C79_words",
    "C79_phrases",
    "C79_sentences",
    "C79_endings",
    "C79_form_feed_refuted"
   ],
   "note": "The line ends are those of the Newline Guidelines of the standard (section 5.8), without form feed and vertical tab; C79_form_feed_refuted shows why those are left out."
  },
  {
   "property": "C80",
   "status": "proved",
   "theorems": [
    "C80_words",
    "C80_phrases",
    "C80_sentences",
    "C80_space_refuted",
    "C80_graphemes_refuted"
   ],
   "note": "The classes are those of the standard (WB and SB of SpecUcd.v: Extend and Format). C80_space_refuted and C80_graphemes_refuted show that the exceptions are needed."
  },
  {
   "property": "C81",
   "status": "proved",
   "theorems": [
    "C81_expands",
    "C81_total",
    "C81_written",
    "C81_files",
    "C81_constructor_refuted"
   ],
   "note": "The template text is that of print.go, copied line by line (SourcePrint.v) and cut out of the Go file in Coq (raw_const). Template.v models the part of text/template in use; anything else does not parse. Integers are not negative; when an action fails the result is None."
  },
  {
   "property": "C82",
   "status": "proved",
   "theorems": [
    "C82_lookup",
    "C82_repeated",
    "C82_one",
    "C82_types",
    "C82_size",
    "C82_handles_refuted"
   ],
   "note": "computeOffsets is that of C44. The constructor that takes a handle is only a comment in the template (C81); it is modelled as that comment says. Options (compacters) are those of C83. C82_handles_refuted: the handle type is chosen from the block numbers of the index and the values, not from where the ASCII blocks begin."
  },
  {
   "property": "C83",
   "status": "proved",
   "theorems": [
    "C83_lookup",
    "C83_types",
    "C83_size",
    "C83_choice",
    "C83_none",
    "C83_offsets_refuted"
   ],
   "note": "A Compacter is a deterministic function of the blocks it has stored; Size has no effect and the function named by Handler does not panic. What a Compacter prints is not modelled, only what the named function returns. C83_lookup and C83_types assume that the handles take at most 0xF0000000 numbers; C83_offsets_refuted shows that some bound is needed."
  },
  {
   "property": "C84",
   "status": "proved",
   "theorems": [
    "C84_graphemes",
    "C84_words",
    "C84_phrases",
    "C84_graphemes_whole",
    "C84_words_whole",
    "C84_phrases_whole",
    "C84_words_refuted",
    "C84_flag_refuted"
   ],
   "note": "The shapes of emoji are those of UTS #51, with any number of modifiers; which are in use by fonts is not modelled. C84_words_refuted: keycaps in a row, and pictographs that are letters, are one word. C84_flag_refuted: a flag after a single regional indicator is torn apart. Sentences are not covered: U+203C and U+2049 are pictographs and end a sentence."
  },
  {
   "property": "C85",
   "status": "proved",
   "theorems": [
    "C85_graphemes",
    "C85_words",
    "C85_sentences",
    "C85_phrases",
    "C85_graphemes_append",
    "C85_words_append",
    "C85_sentences_append",
    "C85_phrases_append",
    "C85_ill_formed_refuted",
    "C85_prepend_refuted"
   ],
   "note": "For valid UTF-8, without joiners and ANSI options. C85_ill_formed_refuted: not so for ill-formed text. C85_prepend_refuted: text put in front can make a boundary."
  },
  {
   "property": "C86",
   "status": "proved",
   "theorems": [
    "C86_words",
    "C86_graphemes",
    "C86_graphemes_ascii",
    "C86_spaces",
    "C86_refuted"
   ],
   "note": "Spaces are the characters with Word_Break=WSegSpace, written out as a list; C86_spaces shows the list complete. C86_refuted: sentences and phrases reach over spaces."
  },
  {
   "property": "C87",
   "status": "proved",
   "theorems": [
    "C87_tokens",
    "C87_strip",
    "C87_graphemes_refuted"
   ],
   "note": "By induction from C25, C26 and C27. C87_graphemes_refuted: the remaining tokens need not be the graphemes of the remaining text, when a sequence stands between a letter and its accent."
  },
  {
   "property": "C88",
   "status": "proved",
   "theorems": [
    "C88_one",
    "C88_words",
    "C88_letters",
    "C88_joiner_refuted"
   ],
   "note": "Both directions, and the cut of any text by longest match of the grammar. C88_joiner_refuted: a joiner holds a pictograph to any word, so such texts are outside the grammar."
  },
  {
   "property": "C89",
   "status": "proved",
   "theorems": [
    "C89_one",
    "C89_phrases",
    "C89_letters",
    "C89_joiner_refuted"
   ],
   "note": "Both directions, and the cut of any text by longest match of the grammar. C89_joiner_refuted: after a bracket a joiner holds a pictograph too, so such texts are outside the grammar."
  },
  {
   "property": "C90",
   "status": "proved",
   "theorems": [
    "C90_ends",
    "C90_one",
    "C90_breaks",
    "C90_terminator_refuted"
   ],
   "note": "Necessary conditions for every boundary, a sufficient condition where a space stands before it, and texts of one sentence. C90_terminator_refuted: a terminator alone does not end a sentence (3.5), and after an exclamation mark a small letter may begin one."
  },
  {
   "property": "C91",
   "status": "proved",
   "theorems": [
    "C91_graphemes",
    "C91_words",
    "C91_phrases",
    "C91_sentences",
    "C91_near_refuted"
   ],
   "note": "An editor can re-segment only around an edit. C91_near_refuted: one character on each side is not enough in general."
  },
  {
   "property": "C92",
   "status": "proved",
   "theorems": [
    "C92_graphemes",
    "C92_words",
    "C92_phrases",
    "C92_sentences",
    "C92_stretch_refuted"
   ],
   "note": "From C91 and C48. C92_stretch_refuted: without a settling character the stretch alone does not tell."
  },
  {
   "property": "C93",
   "status": "proved",
   "theorems": [
    "C93_exactly"
   ],
   "note": "An if and only if, stated on the text with its marks; it implies the conditions of C90."
  },
  {
   "property": "C94",
   "status": "proved",
   "theorems": [
    "C94_local",
    "C94_cut",
    "C94_joiner_refuted"
   ],
   "note": "From C35, C48 and the summary of C91. Leading joiners are not covered. C94_joiner_refuted: a joiner itself settles nothing."
  }
 ]
}