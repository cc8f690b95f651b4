{"id": "C01", "title": "graphemes: iteration is total and lossless", "statement": "For every byte string, well-formed UTF-8 or not, whatever the AnsiEscapeSequences and AnsiEscapeSequences8Bit flags are, looping `for it.Next() { it.Value() }` over graphemes.FromBytes/FromString never panics, ends after at most len(data) tokens, yields only non-empty tokens, the tokens lie end to end (Start of each = End of the previous, first Start 0, last End len(data)), and their concatenation is exactly the input.", "quantifier": "every byte string (any length, any bytes) and every setting of the two flags", "why_tests_cant": "Fuzzing samples inputs; the claim covers all byte strings, including every truncation and corruption of UTF-8, and rules out every out-of-range table index and every non-terminating run.", "anchors": ["graphemes/iterator.go: FromString, FromBytes, Iterator.Next, Iterator.Value", "graphemes/splitfunc.go: splitFunc", "graphemes/trie.go: lookup"]}
{"id": "C02", "title": "words: iteration is total and lossless", "statement": "For every byte string, well-formed UTF-8 or not, looping `for it.Next() { it.Value() }` over words.FromBytes/FromString never panics, ends after at most len(data) tokens, yields only non-empty tokens, the tokens lie end to end (Start of each = End of the previous, first Start 0, last End len(data)), and their concatenation is exactly the input.", "quantifier": "every byte string (any length, any bytes)", "why_tests_cant": "Fuzzing samples inputs; the claim covers all byte strings, including every truncation and corruption of UTF-8, and rules out every out-of-range table index and every non-terminating run.", "anchors": ["words/iterator.go: FromString, FromBytes, Iterator.Next, Iterator.Value", "words/splitfunc.go: splitFunc", "words/trie.go: lookup"]}
{"id": "C03", "title": "sentences: iteration is total and lossless", "statement": "For every byte string, well-formed UTF-8 or not, looping `for it.Next() { it.Value() }` over sentences.FromBytes/FromString never panics, ends after at most len(data) tokens, yields only non-empty tokens, the tokens lie end to end (Start of each = End of the previous, first Start 0, last End len(data)), and their concatenation is exactly the input.", "quantifier": "every byte string (any length, any bytes)", "why_tests_cant": "Fuzzing samples inputs; the claim covers all byte strings, including every truncation and corruption of UTF-8, and rules out every out-of-range table index and every non-terminating run.", "anchors": ["sentences/iterator.go: FromString, FromBytes, Iterator.Next, Iterator.Value", "sentences/splitfunc.go: splitFunc", "sentences/trie.go: lookup"]}
{"id": "C04", "title": "phrases: iteration is total and lossless", "statement": "For every byte string, well-formed UTF-8 or not, looping `for it.Next() { it.Value() }` over phrases.FromBytes/FromString never panics, ends after at most len(data) tokens, yields only non-empty tokens, the tokens lie end to end (Start of each = End of the previous, first Start 0, last End len(data)), and their concatenation is exactly the input.", "quantifier": "every byte string (any length, any bytes)", "why_tests_cant": "Fuzzing samples inputs; the claim covers all byte strings, including every truncation and corruption of UTF-8, and rules out every out-of-range table index and every non-terminating run.", "anchors": ["phrases/iterator.go: FromString, FromBytes, Iterator.Next, Iterator.Value", "phrases/splitfunc.go: splitFunc", "phrases/trie.go: lookup"]}
{"id": "C05", "title": "graphemes: boundaries are exactly those of UAX #29 (GB rules)", "statement": "For every sequence of Unicode scalar values, the tokens of graphemes.FromBytes/FromString on its UTF-8 encoding are exactly the segments obtained by breaking at every position where rules GB3..GB999 (first matching rule wins, over the whole text) say break, with GB9c and GB11..GB13 included.", "quantifier": "every finite sequence of Unicode scalar values", "why_tests_cant": "The official test file has 766 short strings; the rules have unbounded look-behind (GB9c, GB11, GB12/13) and the code restarts its state at each token.", "anchors": ["graphemes/iterator.go: FromString, FromBytes, Iterator.Next, Iterator.Value", "graphemes/splitfunc.go: splitFunc", "graphemes/trie.go: lookup"]}
{"id": "C06", "title": "words: boundaries are exactly those of UAX #29 (WB rules)", "statement": "For every sequence of Unicode scalar values, the tokens of words.FromBytes/FromString on its UTF-8 encoding are exactly the segments given by rules WB3..WB999, with WB4 (ignore Extend/Format/ZWJ) applied to the whole text.", "quantifier": "every finite sequence of Unicode scalar values", "why_tests_cant": "Unbounded look-behind and look-ahead through ignored characters, jumps over look-ahead, parity of regional indicators.", "anchors": ["words/iterator.go: FromString, FromBytes, Iterator.Next, Iterator.Value", "words/splitfunc.go: splitFunc", "words/trie.go: lookup", "words/seek.go: subsequent"]}
{"id": "C07", "title": "sentences: boundaries are exactly those of UAX #29 (SB rules)", "statement": "For every sequence of Unicode scalar values, the tokens of sentences.FromBytes/FromString on its UTF-8 encoding are exactly the segments given by rules SB3..SB998, with SB5 applied to the whole text.", "quantifier": "every finite sequence of Unicode scalar values", "why_tests_cant": "SB8 looks ahead without bound and SB8..SB11 look behind without bound; the code summarises history in six variables and sometimes re-examines a character.", "anchors": ["sentences/iterator.go: FromString, FromBytes, Iterator.Next, Iterator.Value", "sentences/splitfunc.go: splitFunc", "sentences/trie.go: lookup", "sentences/seek.go: subsequent"]}
{"id": "C08", "title": "phrases: boundaries are the WB rules with the two documented tailorings", "statement": "For every sequence of Unicode scalar values, the tokens of phrases.FromBytes/FromString are exactly the segments given by the UAX #29 word rules tailored so that (a) Extended_Pictographic counts as a letter and (b) letters, numbers and WSegSpace do not break from each other.", "quantifier": "every finite sequence of Unicode scalar values", "why_tests_cant": "Same as words; there is no official test file for phrases at all.", "anchors": ["phrases/iterator.go: FromString, FromBytes, Iterator.Next, Iterator.Value", "phrases/splitfunc.go: splitFunc", "phrases/trie.go: lookup", "phrases/seek.go: subsequent"]}
{"id": "C09", "title": "property lookup is total", "statement": "For every non-empty byte string each package's property lookup returns without any out-of-range index, reports a width of at most 4 and at most the number of bytes given, and reports width 0 exactly when the string is shorter than its lead byte announces.", "quantifier": "every non-empty byte string, four tables", "why_tests_cant": "All 2^32 four-byte heads, over tables with indirect indices; a wrong index entry panics only on particular bytes.", "anchors": ["graphemes/trie.go: lookup, lookupValue", "words/trie.go: lookup", "sentences/trie.go: lookup", "phrases/trie.go: lookup"]}
{"id": "C10", "title": "property lookup is right for every scalar value", "statement": "For every Unicode scalar value, whatever bytes follow, each package's lookup on its UTF-8 encoding returns exactly the break property of that scalar value (as listed in a flat range table) and the length of the encoding.", "quantifier": "every Unicode scalar value (1,112,064) and every continuation of the byte string, four tables", "why_tests_cant": "Needs every code point and every continuation, not the sampled ones.", "anchors": ["graphemes/trie.go", "words/trie.go", "sentences/trie.go", "phrases/trie.go"]}
{"id": "C11", "title": "SplitFunc obeys the bufio.SplitFunc contract", "statement": "For every buffer and atEOF, each package's SplitFunc returns no error and does not panic; either it returns 0 and a nil token, or it returns 1 <= advance <= len(data) with token = data[:advance]; with atEOF and a non-empty buffer it always produces a token.", "quantifier": "every buffer content, both values of atEOF, four packages", "why_tests_cant": "A violation needs one particular buffer cut; bufio.Scanner would stall, panic or loop.", "anchors": ["graphemes/splitfunc.go: SplitFunc", "words/splitfunc.go: SplitFunc", "sentences/splitfunc.go: SplitFunc", "phrases/splitfunc.go: SplitFunc"]}
{"id": "C12", "title": "a token emitted from a partial buffer is final", "statement": "If SplitFunc returns a token for a buffer with atEOF=false then for every continuation of the buffer, and either value of atEOF, it returns the same advance and the same token.", "quantifier": "every buffer, every continuation, four packages", "why_tests_cant": "Ranges over all pairs (buffer, continuation); look-ahead rules make early decisions unsound unless more data is requested.", "anchors": ["words/splitfunc.go: splitFunc", "words/seek.go: subsequent", "sentences/splitfunc.go: splitFunc", "graphemes/splitfunc.go: splitFunc", "phrases/splitfunc.go: splitFunc"]}
{"id": "C13", "title": "FromReader yields the same tokens as FromBytes, for every way the reader delivers the data", "statement": "For every byte string and every way of cutting it into Read results (including empty reads, data returned together with EOF, and every buffer size), a run of FromReader's Scanner that ends with Err() == nil has produced exactly the tokens FromBytes produces on the whole data.", "quantifier": "every byte string, every read schedule, every buffer configuration, four packages", "why_tests_cant": "Read schedules are chosen by the environment; tests use a few readers and buffer sizes.", "anchors": ["graphemes/reader.go: FromReader", "words/reader.go: FromReader", "sentences/reader.go: FromReader", "phrases/reader.go: FromReader"]}
{"id": "C14", "title": "FromReader under errors yields the tokens of what was read, or a prefix", "statement": "If the Scanner stops because a token (with its look-ahead) does not fit the buffer, the tokens already produced are a prefix of the tokens of the whole data; if the reader fails with an error, the tokens produced are exactly those of the bytes delivered before the error, and Err() is that error; if the reader makes no progress (100 empty reads in a row), the tokens produced are those of some initial part of the data. (That they are a prefix of the tokens of the whole data is refuted in the last case: what is buffered is flushed as at the end of the data.)", "quantifier": "every byte string, every read schedule and failure point, four packages", "why_tests_cant": "Failure points and schedules are unbounded.", "anchors": ["graphemes/reader.go: FromReader", "words/reader.go: FromReader", "sentences/reader.go: FromReader", "phrases/reader.go: FromReader"]}
{"id": "C15", "title": "words: the ASCII hot path changes nothing", "statement": "For every byte string and every position, Next's ASCII fast path (consuming ASCII letters and digits up to a space or the end) produces exactly the token that the package's SplitFunc produces on the remaining data.", "quantifier": "every byte string and every iterator position", "why_tests_cant": "The fast path drops or shortens context; whether that matters depends on unbounded following text.", "anchors": ["words/iterator.go: Iterator.Next", "words/splitfunc.go: splitFunc"]}
{"id": "C16", "title": "graphemes: the ASCII hot path changes nothing", "statement": "For every byte string and every position, Next's ASCII fast path (emitting an ASCII byte followed by ASCII or the end) produces exactly the token that the package's SplitFunc produces on the remaining data.", "quantifier": "every byte string and every iterator position", "why_tests_cant": "The fast path drops or shortens context; whether that matters depends on unbounded following text.", "anchors": ["graphemes/iterator.go: Iterator.Next", "graphemes/splitfunc.go: splitFunc"]}
{"id": "C17", "title": "sentences: the ASCII hot path changes nothing", "statement": "For every byte string and every position, Next's ASCII fast path (skipping ASCII letters, digits and spaces and backing up one byte) produces exactly the token that the package's SplitFunc produces on the remaining data.", "quantifier": "every byte string and every iterator position", "why_tests_cant": "The fast path drops or shortens context; whether that matters depends on unbounded following text.", "anchors": ["sentences/iterator.go: Iterator.Next", "sentences/splitfunc.go: splitFunc"]}
{"id": "C18", "title": "phrases: the ASCII hot path changes nothing", "statement": "For every byte string and every position, Next's ASCII fast path (skipping ASCII letters, digits and spaces and backing up one byte) produces exactly the token that the package's SplitFunc produces on the remaining data.", "quantifier": "every byte string and every iterator position", "why_tests_cant": "The fast path drops or shortens context; whether that matters depends on unbounded following text.", "anchors": ["phrases/iterator.go: Iterator.Next", "phrases/splitfunc.go: splitFunc"]}
{"id": "C19", "title": "Value, Start and End are always consistent", "statement": "After any sequence of Next, Reset, SetText and First calls, 0 <= Start() <= End() <= len(data), Value() does not panic and equals data[Start():End()], four packages.", "quantifier": "every text and every history of method calls", "why_tests_cant": "Histories are unbounded and interleave re-initialisation.", "anchors": ["graphemes/iterator.go", "words/iterator.go", "sentences/iterator.go", "phrases/iterator.go"]}
{"id": "C20", "title": "Reset replays, SetText starts afresh", "statement": "After any history, Reset followed by iteration yields the same tokens as a fresh iterator over the current text, and SetText(x) followed by iteration yields the same tokens as a fresh iterator over x (with the same flags).", "quantifier": "every history of calls and every text", "why_tests_cant": "Stale state only shows after particular histories.", "anchors": ["graphemes/iterator.go: Reset, SetText", "words/iterator.go: Reset, SetText", "sentences/iterator.go: Reset, SetText", "phrases/iterator.go: Reset, SetText"]}
{"id": "C21", "title": "First returns the first token and disturbs nothing", "statement": "At any point of any history First() returns the first token of the current text (the text itself when empty), and leaves Start, End, Value and all later Next results unchanged.", "quantifier": "every text and every history of method calls", "why_tests_cant": "First shares code with Next on a copy; aliasing of state shows only in particular histories.", "anchors": ["graphemes/iterator.go: First", "words/iterator.go: First", "sentences/iterator.go: First", "phrases/iterator.go: First"]}
{"id": "C22", "title": "exhaustion is stable", "statement": "Once Next has returned false, every further Next returns false and Start, End, Value keep describing the last token.", "quantifier": "every text and every number of further calls", "why_tests_cant": "Unbounded number of calls.", "anchors": ["graphemes/iterator.go: Next", "words/iterator.go: Next", "sentences/iterator.go: Next", "phrases/iterator.go: Next"]}
{"id": "C23", "title": "7-bit ANSI sequences are recognised exactly", "statement": "With AnsiEscapeSequences set, at a token start the iterator takes an ANSI token of length n exactly when the remaining data starts with an ECMA-48 7-bit control sequence of length n as documented (CSI, OSC, DCS/SOS/PM/APC, Fe/Fs/Fp two-byte, nF), cancelled strings ending before CAN/SUB, unterminated or malformed ones not being recognised.", "quantifier": "every byte string", "why_tests_cant": "Payloads are unbounded and terminators interact (ESC not followed by backslash, CAN/SUB, BEL).", "anchors": ["graphemes/ansi.go: ansiEscapeLength, csiBodyLength, oscLength, stSequenceLength"]}
{"id": "C24", "title": "8-bit C1 sequences are recognised exactly", "statement": "With AnsiEscapeSequences8Bit set, at a token start the iterator takes a C1 token of length n exactly when the remaining data starts with a documented C1 control (CSI, OSC, DCS/SOS/PM/APC with C1 terminators, or a standalone C1 byte) of length n.", "quantifier": "every byte string", "why_tests_cant": "As for C23.", "anchors": ["graphemes/ansi8.go: ansiEscapeLength8Bit, oscLengthC1, stSequenceLengthC1"]}
{"id": "C25", "title": "ANSI flags do nothing to text without controls", "statement": "If the text contains no ESC byte, AnsiEscapeSequences does not change the tokens; if the text is well-formed UTF-8 (or has no byte in 0x80..0x9F), AnsiEscapeSequences8Bit does not change them.", "quantifier": "every byte string / every well-formed text, every flag setting", "why_tests_cant": "All texts.", "anchors": ["graphemes/iterator.go: Next"]}
{"id": "C26", "title": "7-bit ANSI sequences are cut out cleanly", "statement": "With AnsiEscapeSequences set, for well-formed text u without ESC, a valid 7-bit sequence e and any bytes v: the tokens of u+e+v are the tokens of u, then e as one token, then the tokens of v.", "quantifier": "every well-formed text, every valid sequence, every continuation", "why_tests_cant": "Unbounded texts on both sides; depends on every cluster ending at ESC.", "anchors": ["graphemes/iterator.go: Next", "graphemes/ansi.go"]}
{"id": "C27", "title": "8-bit C1 sequences are cut out cleanly", "statement": "With AnsiEscapeSequences8Bit set, for well-formed text u, a valid C1 sequence e and any bytes v, the tokens of u+e+v are the tokens of u, then e, then the tokens of v. (False when u ends in a Prepend character: the C1 byte is absorbed into the preceding cluster.)", "quantifier": "every well-formed text, every valid sequence, every continuation", "why_tests_cant": "Depends on the class of the preceding character.", "anchors": ["graphemes/iterator.go: Next", "graphemes/ansi8.go"]}
{"id": "C28", "title": "tokens of well-formed text are well-formed", "statement": "For well-formed UTF-8 input every token of every package is well-formed UTF-8: no code point is ever split.", "quantifier": "every well-formed text, four packages", "why_tests_cant": "All texts.", "anchors": ["graphemes/iterator.go", "words/iterator.go", "sentences/iterator.go", "phrases/iterator.go"]}
{"id": "C29", "title": "a token re-tokenises to itself", "statement": "For every byte string and each package, iterating over any one of its tokens yields that single token.", "quantifier": "every byte string, every token of it, four packages", "why_tests_cant": "Depends on look-ahead beyond the token and on truncated UTF-8.", "anchors": ["graphemes/splitfunc.go", "words/splitfunc.go", "sentences/splitfunc.go", "phrases/splitfunc.go"]}
{"id": "C30", "title": "phrases are made of whole words", "statement": "For well-formed text, every phrase boundary is a word boundary: each phrase is a concatenation of consecutive words tokens.", "quantifier": "every well-formed text", "why_tests_cant": "Relates two segmenters and two generated tables over all texts.", "anchors": ["phrases/splitfunc.go", "words/splitfunc.go", "README.md: Uses"]}
{"id": "C31", "title": "the advertised granularity order", "statement": "README: 'In decreasing granularity: sentences, phrases, words, graphemes'. Read as nesting this fails at two steps (only words within phrases nests, C30): there is a well-formed text with a sentence boundary inside a phrase, and one with a word boundary inside a grapheme cluster.", "quantifier": "every well-formed text", "why_tests_cant": "A universally quantified relation between segmenters.", "anchors": ["README.md: Uses"]}
{"id": "C32", "title": "text may be processed line by line", "statement": "For well-formed text a ending in LF and any bytes b whose first character is not cut off by the end of b (in particular any well-formed b), each package's tokens of a+b are its tokens of a followed by its tokens of b. (Without the condition on b this is refuted: a truncated sequence right after the LF is added to the LF's token.)", "quantifier": "every well-formed a ending in a line feed, every b whose first character is complete, four packages", "why_tests_cant": "All pairs of texts; look-ahead must never cross a line feed.", "anchors": ["graphemes/splitfunc.go", "words/splitfunc.go", "sentences/splitfunc.go", "phrases/splitfunc.go"]}
{"id": "C33", "title": "absent joiners change nothing", "statement": "Joiners(nil) and Joiners with no Middle and no Leading runes give exactly the default tokens, for the Iterator and the Scanner.", "quantifier": "every byte string", "why_tests_cant": "All texts.", "anchors": ["words/joiners.go: Joiners", "words/splitfunc.go: splitFunc"]}
{"id": "C34", "title": "joiners only join", "statement": "For well-formed text and any Joiners, every word boundary produced with the Joiners is a boundary produced without them.", "quantifier": "every well-formed text, every pair of rune lists", "why_tests_cant": "Joiners change the state that later rules see, and the token starts.", "anchors": ["words/joiners.go: Joiners", "words/splitfunc.go: (*Joiners).splitFunc"]}
{"id": "C35", "title": "a middle joiner joins the words around it", "statement": "If r is in Middle (an otherwise unremarkable character), then letters+r+letters is one token and digits+r+digits is one token. (The stronger reading, any word characters on both sides, is refuted: letter+r+digit still breaks.)", "quantifier": "every choice of joiner rune and every surrounding words", "why_tests_cant": "All words, all runes.", "anchors": ["words/joiners.go: Joiners.Middle", "words/splitfunc.go: (*Joiners).splitFunc"]}
{"id": "C36", "title": "a leading joiner attaches to the following word", "statement": "If r is in Leading and begins a token, r followed by letters or digits is one token with them.", "quantifier": "every rune list and every following word", "why_tests_cant": "All words, all runes.", "anchors": ["words/joiners.go: Joiners.Leading", "words/splitfunc.go: (*Joiners).splitFunc"]}
{"id": "C37", "title": "Iterator and Scanner agree under joiners", "statement": "For every Joiners value, FromBytes(...).Joiners(j) and FromReader(...).Joiners(j) produce the same tokens. (Refuted when ' ' is in Middle: the iterator's ASCII fast path ignores joiners; proved when it is not.)", "quantifier": "every byte string, every Joiners value", "why_tests_cant": "All texts and joiner sets.", "anchors": ["words/iterator.go: Next", "words/joiners.go: Joiners", "words/reader.go: Scanner.Joiners"]}
{"id": "C38", "title": "Split installs the given split function", "statement": "After Iterator.Split(f), every token is what f returns on the remaining data, if f takes a run of ASCII letters and digits before a space or the end of the data as a token; in particular for text without ASCII letters and digits. (Without that condition it is refuted: the ASCII fast path bypasses f.)", "quantifier": "every split function that always cuts off a non-empty token, every text", "why_tests_cant": "All functions.", "anchors": ["words/iterator.go: Split, Next"]}
{"id": "C39", "title": "BleveNumeric decides the documented grammar", "statement": "BleveNumeric(token) always terminates without panic and returns true exactly for the tokens of the grammar it documents: a Numeric or ExtendNumLet followed by continuations allowed by WB8, WB11, WB12, WB13a, WB13b (and the empty token).", "quantifier": "every byte string", "why_tests_cant": "All byte strings, including truncated ones, where lookup reports width 0 and the loop does not check it.", "anchors": ["words/bleve_compat.go: BleveNumeric"]}
{"id": "C40", "title": "BleveIdeographic decides the documented grammar", "statement": "BleveIdeographic(token) always terminates without panic and returns true exactly when the token is empty or an ideograph followed by ideographs, ExtendNumLet or ignored characters.", "quantifier": "every byte string", "why_tests_cant": "As C39.", "anchors": ["words/bleve_compat.go: BleveIdeographic"]}
{"id": "C41", "title": "AlphaNumeric keeps exactly tokens with a letter or number", "statement": "For every token and any letter/number classification, the filter returns true exactly when some rune decoded from the token is a letter or a number; for well-formed text these are its code points.", "quantifier": "every byte string, every classification", "why_tests_cant": "All byte strings.", "anchors": ["internal/iterators/filter/filter.go: AlphaNumeric"]}
{"id": "C42", "title": "the generic internal iterator is faithful to its SplitFunc", "statement": "For any SplitFunc that always advances by 1..len(data) without error, internal/iterators.Iterator terminates, is lossless, and its tokens are the SplitFunc's tokens (single remaining bytes excepted, which it emits itself); a SplitFunc that errs, stalls or overruns makes Next and First panic, never return a wrong token.", "quantifier": "every SplitFunc, every text", "why_tests_cant": "Quantifies over functions.", "anchors": ["internal/iterators/iterator.go: Iterator.Next, First"]}
{"id": "C43", "title": "CR LF is never separated and mandatory breaks always break", "statement": "In well-formed text no package ever puts a boundary between CR and an immediately following LF, and every package always puts a boundary after LF (unless at the end); graphemes and words also before LF not preceded by CR.", "quantifier": "every well-formed text, four packages", "why_tests_cant": "All texts.", "anchors": ["graphemes/splitfunc.go", "words/splitfunc.go", "sentences/splitfunc.go", "phrases/splitfunc.go"]}
{"id": "C44", "title": "the trie generator is correct", "statement": "For every assignment of values to valid runes, the tables produced by triegen.Gen for a single trie make the generated lookup return the assigned value for every rune (zero if unassigned), provided the 64-bit hash used for block sharing does not collide on the blocks of this trie.", "quantifier": "every finite map from scalar values to values", "why_tests_cant": "Quantifies over all property tables (every future Unicode version).", "anchors": ["internal/gen/triegen/triegen.go: Insert, buildTrie, computeOffsets", "internal/gen/triegen/print.go: printValues, printIndex, lookupTemplate"]}
{"id": "C45", "title": "generated tables depend only on the property data", "statement": "The code generator builds the same trie whatever order Go iterates its maps in and whatever order the properties and code points come in; the tables it writes make lookup return, for every code point, the word whose bit i tells whether the i-th property in alphabetical order contains the code point, and the word fits the generated integer type.", "quantifier": "every family of at most 64 named sets of scalar values, every map iteration order", "why_tests_cant": "Map iteration order is random per run, and the family is arbitrary.", "anchors": ["internal/gen/main.go: generateTrie, writeTrie"]}
{"id": "C46", "title": "the committed tables are reproducible from the Unicode properties", "statement": "Running the generator on lists of code points that hold the Unicode properties of a package gives exactly the committed trie.go: the same values, the same index, the same size and checksum in its header comment, and no two different blocks were merged by the hash.", "quantifier": "every order and repetition of the lists, every map iteration order, four packages", "why_tests_cant": "All iteration orders; and absence of a hash collision cannot be seen from outputs on samples.", "anchors": ["internal/gen/main.go: generateTrie", "internal/gen/triegen/triegen.go", "graphemes/trie.go", "words/trie.go", "sentences/trie.go", "phrases/trie.go"]}
{"id": "C47", "title": "the generator reads the Unicode data files right", "statement": "A data file in the format of the Unicode Character Database (comments, blank lines, single code points and ranges, one or two property fields, trailing comments without a semicolon, every line ended by a newline) is read without a panic into exactly the code points it lists for each property name. From files that say what the Unicode properties are, the generator makes exactly the committed tables of each package.", "quantifier": "every file of that format, any layout and order of lines, every map iteration order, four packages", "why_tests_cant": "The set of files is infinite, and the committed tables are one sample of one layout.", "anchors": ["internal/gen/main.go: generateTrie, getRuneRange"]}
{"id": "C48", "title": "a run of consecutive tokens keeps its boundaries on its own", "statement": "Take the tokens of a text from one place to another: tokenizing the bytes they spell gives those tokens again. So a text can be cut at any token boundary, and the parts can be processed separately. This holds for any text, if the part is valid UTF-8 or reaches to the end of the text; it fails for a part that ends in a character cut short, and with the escape sequence options of graphemes.", "quantifier": "every byte string, every pair of token boundaries in it, every set of joiners for words, four packages", "why_tests_cant": "Rules look ahead across token ends and back over any distance; that no rule sees past a boundary has to hold for every text and every cut.", "anchors": ["graphemes/splitfunc.go: splitFunc", "words/splitfunc.go: splitFunc, joinersSplitFunc", "words/iterator.go: Next", "sentences/splitfunc.go: splitFunc", "phrases/splitfunc.go: splitFunc"]}
{"id": "C49", "title": "work is proportional to the text", "statement": "Going through a text with an iterator takes a number of steps (trie lookups, bytes read by the fast paths and escape sequence scans, joiner comparisons, calls of Next) that is at most a constant times the length of the text, whatever the text: graphemes without escape sequence options (5 per byte), words (14 per byte, plus the number of joiners), phrases (12 per byte). It is false for sentences, where the look-ahead of rule SB8 is repeated from every closing character and space after a full stop, and for graphemes with escape sequences, where every unterminated introducer is scanned to the end of the text: there the work is quadratic in the worst case, and never more.", "quantifier": "every byte string, every list of joiners, every setting of the options", "why_tests_cant": "A benchmark measures a few texts; the worst text is what an attacker sends, and look-ahead of unbounded length makes the bound depend on all rules together.", "anchors": ["graphemes/iterator.go: Next", "graphemes/splitfunc.go: splitFunc", "words/iterator.go: Next", "words/splitfunc.go: joinersSplitFunc", "words/seek.go: subsequent", "phrases/iterator.go: Next", "phrases/splitfunc.go: splitFunc", "sentences/splitfunc.go: splitFunc (SB8 loop)", "graphemes/ansi.go: ansiEscapeLength"]}
{"id": "C50", "title": "appending text only changes the last tokens", "statement": "If text is appended to a text, all tokens of the first text except the last one (graphemes) or the last two (words with any joiners, sentences, phrases) are also the first tokens of the longer text. So a program that receives text piece by piece can keep all but the last one or two tokens. One and two cannot be lowered. With the escape sequence option of graphemes no fixed number suffices.", "quantifier": "every byte string, every byte string appended to it, every list of joiners", "why_tests_cant": "The rules look ahead over any number of ignored characters, and rule SB8 over any text without letters, so how far back an appended character can reach is not bounded by any sample; both texts are arbitrary and need not be valid UTF-8.", "anchors": ["graphemes/iterator.go: FromBytes, Next", "words/iterator.go: FromBytes, Next", "words/joiners.go: Joiners", "words/seek.go: subsequent", "sentences/iterator.go: Next", "sentences/splitfunc.go: splitFunc (SB8 loop)", "phrases/iterator.go: Next", "graphemes/ansi.go: ansiEscapeLength"]}
{"id": "C51", "title": "trie.go is the text of the tables", "statement": "The text the generator writes, laid out by gofmt in any way, is a Go file of the part of the language a small reader accepts: it declares the package, a type wide enough for all values, one constant per property (an underscore and the name of the property without underscores) whose value is the bit of the property, and two arrays whose elements are exactly the tables the lookup uses. The committed trie.go of each package, read this way, declares exactly the constants and arrays of this model, and is, up to blanks and empty lines, the text the generator writes from the Unicode data files. Two limits: names that differ only in underscores, and fewer than eight properties with block numbers above 255, give a file that does not compile.", "quantifier": "every family of at most 64 properties, every trie the generator builds for it, every order of map visits, every layout; the four committed files", "why_tests_cant": "A test can compare one generated file with one committed file. That the text means the tables depends on offsets, zero suppression, number formats and constant numbering for every family of properties, and the extent of the limits is only visible over all of them.", "anchors": ["internal/gen/main.go: writeTrie", "internal/gen/triegen/print.go: printValues, printIndex, print, lookupTemplate, trieTemplate", "internal/gen/triegen/triegen.go: Gen, getIntType", "graphemes/trie.go", "words/trie.go", "sentences/trie.go", "phrases/trie.go"]}
{"id": "C52", "title": "the protocol of a Scanner", "statement": "However often Scan is called, and whatever the reader does: it never panics; Bytes is a non-empty token exactly when Scan returned true; the tokens are consecutive parts of the data from its start; once Err is not nil it does not change; and once Scan has returned false, every further call returns false, with no token and the same Err - unless Err is bufio.ErrTooLong: then Scan may return true again and cuts up what is in the buffer as if the data ended there. Buffer, Split and Joiners may be called in any order and number before the first Scan, the last call counts, and they panic after it.", "quantifier": "every reader (any sizes and numbers of reads, empty reads, any error), every buffer and size limit, every number of calls of Scan, every sequence of configuration calls, every list of joiners", "why_tests_cant": "It ranges over all readers and all call sequences, also the calls after the end that a loop never makes.", "anchors": ["graphemes/reader.go:FromReader", "words/reader.go:FromReader", "words/reader.go:Joiners", "sentences/reader.go:FromReader", "phrases/reader.go:FromReader"]}
{"id": "C53", "title": "the text of the program means the model (graphemes)", "statement": "Read as Go and run, the text of package graphemes does what the other properties say: FromString, FromBytes, Next, Value, Start, End, Reset, SetText, First and assignments to the two ANSI settings, in any order and number, return what the model returns, and so does SplitFunc. Integers wrap around as in Go, indexing and slicing out of range would panic; neither happens.", "quantifier": "every string or []byte (nil too) shorter than 2^62 bytes, any contents of memory, every sequence of method calls and settings; the text of the five committed files, line by line", "why_tests_cant": "A model written by hand can differ from the program in a case no test has. Here the program text itself is executed symbolically, for every input.", "anchors": ["graphemes/iterator.go:Iterator", "graphemes/splitfunc.go:splitFunc", "graphemes/ansi.go:ansiEscapeLength", "graphemes/ansi8.go:ansiEscapeLength8Bit", "graphemes/trie.go:lookup"]}
{"id": "C54", "title": "the text of the program means the model (sentences, phrases)", "statement": "Read as Go and run, the text of the packages sentences and phrases does what the other properties say: FromString, FromBytes, Next, Value, Start, End, Reset, SetText and First, in any order and number, return what the model returns, and so does SplitFunc. Integers wrap around as in Go, indexing and slicing out of range would panic; neither happens.", "quantifier": "every string or []byte (nil too) shorter than 2^62 bytes, any contents of memory, every sequence of method calls; the text of the committed files, line by line", "why_tests_cant": "A model written by hand can differ from the program in a case no test has. Here the program text itself is executed symbolically, for every input.", "anchors": ["sentences/iterator.go:Iterator", "sentences/splitfunc.go:splitFunc", "sentences/seek.go:subsequent", "phrases/iterator.go:Iterator", "phrases/splitfunc.go:splitFunc", "phrases/seek.go:subsequent"]}
{"id": "C55", "title": "the text of the program means the model (words)", "statement": "Read as Go and run, the text of package words does what the other properties say: FromString, FromBytes, Next, Value, Start, End, Reset, SetText, First and Joiners (with any joiners, slices nil or empty, or a nil pointer), in any order and number, return what the model returns; so do SplitFunc, BleveNumeric and BleveIdeographic. Integers wrap around as in Go, indexing and slicing out of range would panic; neither happens.", "quantifier": "every string or []byte (nil too) shorter than 2^62 bytes, all joiners, any contents of memory, every sequence of method calls; the text of the committed files, line by line", "why_tests_cant": "A model written by hand can differ from the program in a case no test has. Here the program text itself is executed symbolically, for every input.", "anchors": ["words/iterator.go:Iterator", "words/splitfunc.go:splitFunc", "words/joiners.go:Joiners", "words/seek.go:subsequent", "words/bleve_compat.go:BleveNumeric", "words/bleve_compat.go:BleveIdeographic"]}
{"id": "C56", "title": "the text of the program means the model (internal/iterators, filter, words with a client's split function)", "statement": "Read as Go and run, the text of internal/iterators returns what the model returns: New, SetText, Split, Next, Value, Start, End, Reset and First, in any order and number, with any split functions the client gives, right or wrong; a call panics exactly when the model says so, also after the position has overflowed. The same holds for the iterator of words when the client sets split functions of their own with Split. The text of filter.AlphaNumeric answers as the model does.", "quantifier": "every string or []byte (nil too) shorter than 2^62 bytes, every split function (for words: with advances below 2^62), every sequence of method calls up to and including the first panic, any contents of memory; for the filter any two predicates in place of unicode.IsLetter and unicode.IsNumber", "why_tests_cant": "The split function is a parameter: there are unboundedly many, and the interesting ones misbehave. The program text itself is executed symbolically for all of them.", "anchors": ["internal/iterators/iterator.go:Iterator", "internal/iterators/filter/filter.go:AlphaNumeric", "words/iterator.go:Iterator.Split"]}
{"id": "C57", "title": "the text of the program, run, cuts the text as the standard says", "statement": "Take the Go files of a package as they are, read them as Go and run the client's loop: FromString or FromBytes, any settings, then Next and Value until Next is false. For valid UTF-8 and default settings the values are the segments that UAX #29 defines (for phrases: the tailored words). For any bytes and any settings the loop ends without panic, no value is empty, and the values joined are the text.", "quantifier": "every string and []byte (nil too) shorter than 2^62 bytes, every list of settings (AnsiEscapeSequences; Joiners with any runes), any contents of memory", "why_tests_cant": "It is a statement about all texts and about the source text itself; C05 to C08 speak of a transcription of it.", "anchors": ["graphemes/iterator.go:Iterator", "words/iterator.go:Iterator", "sentences/iterator.go:Iterator", "phrases/iterator.go:Iterator"]}
{"id": "C58", "title": "the text of FromReader, run, cuts what a Reader delivers as the standard says", "statement": "Take the Go files of a package, its reader.go too, as they are. FromReader gives a bufio.Scanner whose split function is the package's own. With it the loop over Scan sees exactly what it sees with the split function of the model, whatever the io.Reader does. If Err is nil in the end the tokens joined are the data, none is empty, and for valid UTF-8 they are the segments of UAX #29; and Err is nil when the reader does not stall and the data fits in the buffer. In words, Joiners replaces the split function by the one with these joiners before the first Scan, and panics afterwards.", "quantifier": "every io.Reader, every way of delivering the data in pieces, every buffer and size limit below 2^62 bytes, every list of joiners (nil too), any contents of memory", "why_tests_cant": "There are unboundedly many readers, chunkings and texts; and the statement is about the source text itself.", "anchors": ["graphemes/reader.go:FromReader", "words/reader.go:FromReader", "words/reader.go:Scanner.Joiners", "sentences/reader.go:FromReader", "phrases/reader.go:FromReader"]}
{"id": "C59", "title": "the official break tests are read as they are meant", "statement": "From a file in the format of GraphemeBreakTest.txt, WordBreakTest.txt or SentenceBreakTest.txt the generator makes one test for each line with marks, in their order, and none for remarks: its input is the text of the line in UTF-8, its expected pieces are the parts between the division signs, its comment what follows the number sign. These tests pass for the iterators of the package exactly if the marks of the file are the boundaries of UAX #29. On an empty line the generator panics.", "quantifier": "every file in the format, of any number of lines and code points, with either line end and with or without a last line end", "why_tests_cant": "The generator is run once, on one file per version of Unicode, over the network; a line that is read wrongly would weaken the test suite without a failure.", "anchors": ["internal/gen/main.go:generateTests"]}
{"id": "C60", "title": "the generated test source lists exactly these tests", "statement": "The source that the generator gives to gofmt declares the package, and an array of as many tests as there are, in which each input and each expected piece is a literal of just these bytes, in order, and each comment is the quoted comment, provided that no comment contains the text []uint8{.", "quantifier": "every list of tests, with empty pieces or without, any package name, URL and quoting function", "why_tests_cant": "The text replacements in the generated source act on the whole file; only a proof shows that they hit nothing else for any contents.", "anchors": ["internal/gen/main.go:writeTests"]}
{"id": "C61", "title": "iterators do not disturb each other", "statement": "Any number of clients, of graphemes, words, sentences, phrases or internal/iterators, each with an iterator of their own, use their iterators in the same program, one call at a time, in any order. Each of them sees, call for call, what they would have seen without the others, and nothing that was in memory before is changed. If each part would end alone then so does the whole; with the packages' own split functions it always does.", "quantifier": "every list of clients, every text, every sequence of calls of each client (with joiners, settings and split functions changed on the way), every schedule, complete or not, every memory to begin with", "why_tests_cant": "There are infinitely many schedules; state shared by mistake, such as a package variable or a joiner reused, shows only in some of them.", "anchors": ["graphemes/iterator.go:Iterator", "words/iterator.go:Iterator", "words/joiners.go:Joiners", "sentences/iterator.go:Iterator", "phrases/iterator.go:Iterator", "internal/iterators/iterator.go:Iterator"]}
{"id": "C62", "title": "tokens share memory with the text, and writing to them is harmless", "statement": "A token of a []byte iterator is a part of the caller's own array. The client may write to the tokens they have been given, at any time: the tokens that follow, and where they begin and end, are those of the text as it was. So a loop that replaces each token in place by something as long produces the replacements of exactly the tokens of the original text, and touches nothing outside it. With a Reader, too, what the client writes into the buffer in front of the data still to be split, and what the Reader leaves behind the data it returns, has no effect. Appending to a token is not harmless: within the capacity it overwrites the text that follows (refuted).", "quantifier": "every array and every slice of it, every sequence of calls and writes, every replacement that keeps lengths, every Reader with any use of the buffer as scratch space, every split function", "why_tests_cant": "An iterator that looked back at text already delivered, say to see whether a flag or a word went before, would be wrong only for some texts and some writes.", "anchors": ["graphemes/iterator.go:Value", "words/iterator.go:Value", "sentences/iterator.go:Value", "phrases/iterator.go:Value", "graphemes/reader.go:Scanner", "words/reader.go:Scanner"]}
{"id": "C63", "title": "data of any length can be read through a small buffer", "statement": "A split function asks for more data only while it needs to. For words (with any joiners), sentences and phrases: if any two consecutive tokens of the data and three bytes more are shorter than the Scanner's maximum (64 KB, or what the client set with Buffer), and the Reader does not stall, the Scanner returns exactly the tokens of the data, however long it is, and Err() is nil or the Reader's own error; it is never ErrTooLong. For graphemes one token suffices. For the others one is not enough (refuted), and the three bytes are needed.", "quantifier": "every byte string of any length, every Reader that does not stall and every way it delivers the data, every buffer and maximum", "why_tests_cant": "A split function that asked for more data once too often would work on every text shorter than the buffer, and on most longer ones; it fails where the buffer happens to end at the wrong place.", "anchors": ["graphemes/splitfunc.go:splitFunc", "words/splitfunc.go:splitFunc", "words/splitfunc.go:subsequent", "sentences/splitfunc.go:splitFunc", "phrases/splitfunc.go:splitFunc", "words/reader.go:FromReader", "graphemes/reader.go:FromReader", "sentences/reader.go:FromReader", "phrases/reader.go:FromReader"]}
{"id": "C64", "title": "reading takes memory for two tokens, not for the text", "statement": "However long the data a Reader delivers, and however many times Scan is called, the Scanner's buffer is never larger than at first (the client's buffer, or 4096 bytes), or than twice the length of two consecutive tokens of the data and three bytes (for graphemes, of one token). It is never larger than the maximum either, unless the client's own buffer was; that holds for every split function and every Reader.", "quantifier": "every byte string of any length, every Reader and every way it delivers the data, every buffer and maximum, every number of calls of Scan", "why_tests_cant": "All lengths and all ways of cutting the data into reads; a test sees a few sizes.", "anchors": ["graphemes/reader.go:FromReader", "words/reader.go:FromReader", "sentences/reader.go:FromReader", "phrases/reader.go:FromReader", "graphemes/splitfunc.go:splitFunc", "words/splitfunc.go:splitFunc", "sentences/splitfunc.go:splitFunc", "phrases/splitfunc.go:splitFunc"]}
{"id": "C65", "title": "grapheme clusters are the longest matches of the regular expression of UAX #29", "statement": "UAX #29 defines extended grapheme clusters twice: by boundary rules (C05), and by a regular expression (Table 1c) to be matched again and again, longest match first. The tokens of any valid UTF-8 text are exactly the pieces this second definition gives, which are unique; and a text is a single token exactly when all of it matches. In particular each byte of ASCII text is a token by itself, except that CR LF is one.", "quantifier": "every text of Unicode scalar values, of any length", "why_tests_cant": "The two definitions agree only by an argument about all texts; the expression has nested stars.", "anchors": ["graphemes/splitfunc.go:splitFunc", "graphemes/iterator.go:FromBytes", "graphemes/iterator.go:Iterator.Next", "graphemes/trie.go:lookup"]}
{"id": "C66", "title": "plain text is cut the familiar way", "statement": "In a text without marks, apostrophes, quotes, full stops, commas, colons and flags, a word is a maximal run of letters, numbers and underscores (or of Katakana, or of spaces), CR LF, or any other single character; a phrase is the same with pictographs as letters and with spaces staying with letters and numbers. In a text without full stops, question marks, exclamation marks and the like, the sentences are exactly the lines, each with its line end. For ASCII the classes are A-Z a-z 0-9 _ and space, the excluded characters are quotation mark, apostrophe, comma, full stop, colon and semicolon (words, phrases) and full stop, exclamation mark and question mark (sentences).", "quantifier": "every text of Unicode scalar values without the named characters, of any length", "why_tests_cant": "It ranges over all texts; no finite set of examples shows that the longer-range rules never take part.", "anchors": ["words/splitfunc.go:SplitFunc", "phrases/splitfunc.go:SplitFunc", "sentences/splitfunc.go:SplitFunc", "words/iterator.go:FromBytes", "phrases/iterator.go:FromBytes", "sentences/iterator.go:FromBytes"]}
{"id": "C67", "title": "ill-formed text is cut like text with replacement characters", "statement": "Any bytes divide in exactly one way into units, each a lead byte with the continuation bytes it announces as far as they follow, or any other single byte, and a tail where a lead byte announces more bytes than are left. Every token consists of whole units, the tail going with the last token (or being the only one), and the tokens are exactly the UAX #29 segments of the text in which every well-formed unit is its character and every other unit is U+FFFD, for grapheme clusters, words (also with joiners), phrases, and sentences without a tail. For sentences with a tail the text before it is cut as if a lower case letter followed, so that a truncated last character can undo a sentence boundary before it.", "quantifier": "every byte string, well-formed or not, of any length; every joiner configuration without a middle space", "why_tests_cant": "It ranges over all byte strings and relates two runs on different inputs.", "anchors": ["graphemes/splitfunc.go:SplitFunc", "words/splitfunc.go:SplitFunc", "phrases/splitfunc.go:SplitFunc", "sentences/splitfunc.go:SplitFunc", "words/trie.go:lookup", "graphemes/iterator.go:FromBytes"]}
{"id": "C68", "title": "boundaries depend on the Unicode properties only", "statement": "Two byte strings whose units (C67) correspond one to one and stand for characters with the same properties are cut between the same units. In particular replacing ASCII letters by ASCII letters and digits by digits in any bytes, such as changing the case or masking digits, changes no boundary of grapheme clusters, words and phrases: the tokens of the changed text are the changed tokens of the text. For sentences the same holds when lower case stays lower case and upper case upper case.", "quantifier": "every two byte strings, well-formed or not, of any length; every byte map of the kind described", "why_tests_cant": "It relates runs on arbitrarily many pairs of inputs and quantifies over all byte maps.", "anchors": ["graphemes/splitfunc.go:SplitFunc", "words/splitfunc.go:SplitFunc", "phrases/splitfunc.go:SplitFunc", "sentences/splitfunc.go:SplitFunc", "words/iterator.go:Next"]}
{"id": "C69", "title": "the spelling of Hangul syllables moves no boundary", "statement": "Replacing every precomposed Hangul syllable of a well-formed text by its conjoining jamo (the canonical decomposition) gives the same grapheme clusters, words, phrases and sentences, with their syllables replaced. Two texts that differ only in which syllables are written as jamo have the same number of tokens, and corresponding tokens differ only in that.", "quantifier": "every well-formed text of any length, every choice of syllables written as jamo, four packages", "why_tests_cant": "It relates runs on arbitrarily many pairs of inputs; one text with n syllables already has 2^n spellings.", "anchors": ["graphemes/splitfunc.go:SplitFunc", "words/splitfunc.go:SplitFunc", "phrases/splitfunc.go:SplitFunc", "sentences/splitfunc.go:SplitFunc", "graphemes/trie.go", "words/trie.go"]}
{"id": "C70", "title": "an accented letter and the letter followed by its marks are cut alike", "statement": "If characters of a well-formed text are respelled as characters of the same properties followed by any number of combining marks (as canonical decomposition does with accented letters), the tokens of the respelled text are the respelled tokens of the text, for grapheme clusters, words, phrases and sentences. In particular putting marks after letters, digits, punctuation or pictographs moves no boundary.", "quantifier": "every well-formed text of any length, every choice of characters and marks, four packages", "why_tests_cant": "It relates runs on arbitrarily many pairs of inputs, with any number of marks at any number of places.", "anchors": ["graphemes/splitfunc.go:SplitFunc", "words/splitfunc.go:SplitFunc", "phrases/splitfunc.go:SplitFunc", "sentences/splitfunc.go:SplitFunc"]}
{"id": "C71", "title": "goroutines with iterators of their own never race and get the answers they would get alone, even with a shared Joiners", "statement": "Let several goroutines run at once, each with iterators of its own, and let their single reads and writes of memory be interleaved in any order. No two of them are ever about to access the same struct with one of them writing. After any number of steps each goroutine is where it would be alone after as many steps of its own, so it gets the same answers, and nothing else in memory has changed. Goroutines that call Joiners on their iterators may pass the same *Joiners, as package words never writes to it.", "quantifier": "any number of goroutines, any sequences of calls, any texts, any interleaving of the memory accesses, any memory to begin with; five packages, and any client functions in the Go fragment that do not assign to the fields of Joiners", "why_tests_cant": "The race detector sees the interleavings that happened; there are exponentially many of them.", "anchors": ["graphemes/iterator.go:Iterator", "words/iterator.go:Iterator", "words/joiners.go:Joiners", "sentences/iterator.go:Iterator", "phrases/iterator.go:Iterator", "internal/iterators/iterator.go:Iterator"]}
{"id": "C72", "title": "iterating takes constant memory and allocates nothing", "statement": "Making an iterator of graphemes, sentences, phrases or internal/iterators puts one struct in memory. However long the text and however many calls of Next, Value, Start, End, Reset, SetText or the settings follow, no struct is added, and no text is copied. With all packages, words included, and with First too, what can still be found from the iterator after any calls is the iterator itself and, for words, the Joiners in use; nothing can be found from what the calls have returned.", "quantifier": "all texts, all sequences of calls of any length, all memories before", "why_tests_cant": "a benchmark reports allocations for the texts and calls it makes; a call that keeps something alive on a rare path, or a text that grows a table, shows only with that path or text", "anchors": ["sentences/README.md: ~constant memory, and no allocations", "phrases/README.md", "graphemes/iterator.go: Next, Value, SetText, First", "words/iterator.go", "words/joiners.go", "sentences/iterator.go", "phrases/iterator.go", "internal/iterators/iterator.go"]}
{"id": "C73", "title": "canonically equivalent texts are cut alike", "statement": "Two texts that are canonically equivalent (composed or decomposed characters, marks of different combining classes in any order, Hangul syllables or jamo) have equally many graphemes, words, phrases and sentences, and each token of the one is canonically equivalent to the token in the same place of the other. In particular normalising a text to NFC or NFD does not change what is found. There is one exception, and it is shown to be one: the canonical mapping of U+21AE, for graphemes, words and phrases; sentences have none.", "quantifier": "all pairs of canonically equivalent well-formed texts of any length, equivalence taken over the characters of Unicode 15", "why_tests_cant": "there are infinitely many equivalent spellings and contexts; the official tests hold few pairs of equivalent texts, and one character out of two thousand is an exception", "anchors": ["graphemes/splitfunc.go: splitFunc", "words/splitfunc.go", "phrases/splitfunc.go", "sentences/splitfunc.go", "graphemes/trie.go", "words/trie.go", "sentences/trie.go", "phrases/trie.go"]}
{"id": "C74", "title": "normalising to NFD and cutting can be done in either order", "statement": "The tokens of a text brought to Normalization Form D are the tokens of the text, each brought to Normalization Form D: a user may normalise before or after cutting. Two texts with the same Normalization Form D, such as a text and its NFC, have equally many tokens, and those in the same place have the same form. This holds for sentences of all texts, and for graphemes, words and phrases of all texts without U+21AE; it fails for that character.", "quantifier": "all well-formed texts of any length (without U+21AE except for sentences), normalisation with the data of Unicode 15", "why_tests_cant": "normalisation moves, splits and reorders characters in unboundedly many ways; a test sees single texts", "anchors": ["graphemes/splitfunc.go: splitFunc", "words/splitfunc.go", "phrases/splitfunc.go", "sentences/splitfunc.go"]}
{"id": "C75", "title": "changing the case and cutting", "statement": "Bringing a text to small letters, capitals or title case, character by character, keeps its graphemes, words and phrases: the tokens of the changed text are the tokens of the text, each changed. The exceptions are U+24C2 (small letters) and U+24DC and U+0345 (capitals, title case), and each of them is one. Sentences do depend on case, but in one direction only: small letters join whole sentences and never part one, capitals part sentences and never join two.", "quantifier": "all well-formed texts of any length, the simple case mappings of Unicode 15", "why_tests_cant": "every sequence of characters can be changed, and the rules look arbitrarily far around a boundary", "anchors": ["graphemes/splitfunc.go: splitFunc", "words/splitfunc.go", "phrases/splitfunc.go", "sentences/splitfunc.go"]}
{"id": "C76", "title": "the tables agree with a copy of the Unicode data from elsewhere", "statement": "For every character that Unicode 15 has, the property lookups of the four packages say what a copy of the Unicode Character Database 15.0 says that does not come from the program, except for the characters whose property has changed since: 28 of Grapheme_Cluster_Break, 17 of Word_Break, 27 of Sentence_Break, listed with their new values, and Extended_Pictographic, which the characters that are not emoji have lost. The ideographic set of the words package is Word_Break=Katakana with the scripts Han and Hiragana. Indic_Conjunct_Break is Extend or Linker exactly for the characters UAX #44 derives.", "quantifier": "all 286 785 code points with an age in Unicode 15.0, whatever bytes follow", "why_tests_cant": "the official break tests use about 60 characters; a wrong entry of a table shows for one character only", "anchors": ["graphemes/trie.go", "words/trie.go", "sentences/trie.go", "phrases/trie.go", "internal/gen/main.go"]}
{"id": "C77", "title": "work of reading a stream", "statement": "Reading a stream through a Scanner to its end takes a number of steps (rounds of Scan's loop, steps of the SplitFunc, bytes the Scanner moves or copies, calls of Read) that is at most a constant for each byte and a constant for each call of Read, whatever the sizes of the reads, where the constants depend only on the longest tokens: for graphemes, words (with the number of joiners) and phrases 3, 11, 9 per byte, and 7, 23, 19 times (w + 4) per Read, where w is the length of the longest one (graphemes) or two (words, phrases) consecutive tokens; for sentences 2w + 14 per byte. Iterating over sentences in memory takes at most 2w + 16 steps per byte, where w is the length of the longest two consecutive sentences.", "quantifier": "all texts, all readers (sizes of reads, empty reads, errors), all initial buffers and limits, all runs of the client's loop that end", "why_tests_cant": "the SplitFunc is called again on the same bytes after every Read, so the work depends on the sizes of the reads and on where the tokens fall; a quadratic case shows only for particular texts and readers", "anchors": ["graphemes/splitfunc.go SplitFunc", "words/splitfunc.go SplitFunc", "phrases/splitfunc.go SplitFunc", "sentences/splitfunc.go SplitFunc", "graphemes/reader.go FromReader"]}
{"id": "C78", "title": "normalising to NFC and cutting can be done in either order", "statement": "The tokens of a text in Unicode Normalization Form C are the tokens of the text, each brought into Form C: a client may compose before or after cutting, and a token of a composed text is composed. This holds for sentences always, for graphemes, words and phrases unless U+21AE (an arrow with a stroke) occurs in the text or arises by composing; with it it is false.", "quantifier": "all texts of scalar values (as far as Unicode 15 decomposes and composes them), all four packages", "why_tests_cant": "composition depends on unbounded runs of marks between a letter and the mark it absorbs, and on exclusions; the decisions of the rules must not depend on any of it", "anchors": ["graphemes/splitfunc.go", "words/splitfunc.go", "phrases/splitfunc.go", "sentences/splitfunc.go"]}
{"id": "C79", "title": "how lines end moves no boundary", "statement": "Replacing every CR LF, CR, NEL (U+0085), line separator and paragraph separator of a text by LF gives the same graphemes, words, phrases and sentences, with their line ends replaced. Two texts that differ only in how their lines end have equally many tokens, and corresponding tokens differ only in that. (Not so for form feeds: a form feed replaced by LF ends a sentence.)", "quantifier": "all texts of scalar values, with any mixture of line ends, all four packages", "why_tests_cant": "line ends occur anywhere, next to each other and next to every class of characters, and CR before LF is one line end but two elsewhere; replacing one changes the length of the text and what may be looked back at", "anchors": ["graphemes/splitfunc.go", "words/splitfunc.go", "phrases/splitfunc.go", "sentences/splitfunc.go"]}
{"id": "C80", "title": "soft hyphens and other invisible characters do not take part in words and sentences", "statement": "Remove from a text the marks and format characters (soft hyphen, directional marks, word joiner, variation selectors, accents) that follow a character other than a line end, a space or a zero width joiner: the words and phrases of what is left are those of the text, with these characters removed. For sentences only line ends must be excepted. (After spaces and joiners it is false, and it is false of graphemes.)", "quantifier": "all texts of scalar values with any number of such characters anywhere, words, phrases and sentences", "why_tests_cant": "the code skips such characters backwards and forwards, in any number, at every rule; one rule that forgets to would show only where such a character stands next to just that rule's characters", "anchors": ["words/splitfunc.go", "words/seek.go", "phrases/splitfunc.go", "phrases/seek.go", "sentences/splitfunc.go", "sentences/seek.go"]}
{"id": "C81", "title": "the generator's templates expand without error, to the committed files", "statement": "The two templates in internal/gen/triegen/print.go, taken as they stand in the file and expanded by text/template, never fail, whatever tries, blocks and compactions the generator has built. For one trie they give, for any name and any blocks, the lookup function, the accessor and the two arrays of C51; run on the Unicode data files they give the committed trie.go files up to layout. (The constructor newNameTrie that Gen promises is in the text only as a comment.)", "quantifier": "all names, sizes, checksums, numbers of tries and compactions, and all tables", "why_tests_cant": "a template is checked when it is executed, on the path it takes: a misspelt field in a branch that the four packages do not take, or a wrong count for other tables, shows only on data that no test has", "anchors": ["internal/gen/triegen/print.go: trieTemplate, lookupTemplate, print, trieGen, lookupGen", "internal/gen/triegen/triegen.go: Gen", "internal/gen/main.go: writeTrie"]}
{"id": "C82", "title": "several tries share one pair of tables without disturbing each other", "statement": "triegen.Gen, given any number of tries (up to 250), writes one pair of arrays and a handle for each trie, and the printed lookup through a trie's handle answers that trie's own assignment for every input, as long as the hash confuses no two blocks of the tries. A trie given again adds nothing and gets the same handle; one trie alone gives exactly what internal/gen/main.go gets. The numbers in both arrays fit the declared types. (The ASCII numbers of the handles need not: found, with 129 tries.)", "quantifier": "all lists of up to 250 tries, all assignments, all hashes that tell the blocks apart, and all inputs of the lookup", "why_tests_cant": "whether one trie's blocks disturb another's depends on which blocks coincide, for every combination of tries; the repository itself only ever passes one", "anchors": ["internal/gen/triegen/triegen.go: Gen, build, buildTrie, computeOffsets, Size", "internal/gen/triegen/print.go: print, trieTemplate, lookupTemplate"]}
{"id": "C83", "title": "Compacters make tables smaller and never change what the lookup answers", "statement": "triegen.Gen with the Compact option, for any list of Compacters that give back what they store: the printed lookup through each trie's handle answers that trie's assignment for every input. A block goes to the first Compacter that needs the fewest bytes if those are fewer than the plain block takes; the returned size counts what they said they need. Numbers in both arrays fit the declared types. Without Compacters the result is the one without the option. (Found: the offsets are uint32, and handles close to 2^32 make an entry wrap to another block.)", "quantifier": "all lists of Compacters that give back what they store, all lists of up to 250 tries, all assignments, all hashes that tell the blocks apart, and all inputs of the lookup", "why_tests_cant": "which case of the printed switch an entry falls in depends on the handles of every Compacter for every set of blocks; the repository has no Compacter and never passes the option", "anchors": ["internal/gen/triegen/compact.go: Compacter, simpleCompacter", "internal/gen/triegen/triegen.go: Compact, computeOffsets, buildTrie, Size", "internal/gen/triegen/print.go: lookupValue, printIndex"]}
{"id": "C84", "title": "Emoji are never torn apart, and a text of emoji is cut into exactly these emoji", "statement": "An emoji is a sequence of pictographs with modifiers (skin tones, presentation selector, keycap, tags) joined by ZERO WIDTH JOINER, a flag of two regional indicators, or a keycap. The graphemes of any number of emoji written one after the other are these emoji. So are the words, for flags and for pictographs that are not also letters; phrases keep a run of joined emoji in one token. In any valid text, no grapheme, word or phrase boundary falls inside an emoji; for a flag this needs that no regional indicator stands before it.", "quantifier": "all lists of emoji of any length and any number of elements, modifiers and joiners; all texts before and after", "why_tests_cant": "emoji sequences can be arbitrarily long and be put in any order and any surroundings; the test file of UAX #29 has a dozen", "anchors": ["graphemes/splitfunc.go: SplitFunc (GB9, GB11, GB12, GB13)", "words/splitfunc.go: SplitFunc (WB3c, WB4, WB15, WB16)", "phrases/splitfunc.go: SplitFunc"]}
{"id": "C85", "title": "Every token is the longest piece that is a token by itself, and appending text only takes boundaries away", "statement": "In valid UTF-8, for graphemes, words, sentences and phrases: each token is the longest prefix of what remains of the text that, given to the segmenter by itself, comes back as one token; and these longest matches determine the tokens. Consequently, and also stated: when text is appended, no boundary appears inside the text that was there before.", "quantifier": "all valid texts, all prefixes of what remains, all appended texts", "why_tests_cant": "words and sentences look ahead, sentences without a bound, so that what is appended can change decisions far back; a test tries some texts", "anchors": ["graphemes/splitfunc.go: SplitFunc", "words/splitfunc.go: SplitFunc", "sentences/splitfunc.go: SplitFunc", "phrases/splitfunc.go: SplitFunc"]}
{"id": "C86", "title": "Words may be found between the spaces, and graphemes between ASCII characters", "statement": "Valid text may be cut at its spaces before it is given to the segmenter: if spaces stand between two texts, the first not ending with a space and the second not beginning with a space or a combining mark, the words of the whole are the words of the first, the spaces as one token, and the words of the second. For graphemes the same, every space being its own token, if the first text does not end with a prepended character. Graphemes may also be cut between any two ASCII characters other than CR LF.", "quantifier": "all texts before and after, all runs of spaces, all pairs of ASCII characters", "why_tests_cant": "the rules look back over any number of characters and, for words, ahead past any number of marks; that neither reaches past a space in any text is not settled by examples", "anchors": ["words/splitfunc.go: SplitFunc (WB3d, WB4)", "graphemes/splitfunc.go: SplitFunc"]}
{"id": "C87", "title": "Text for a terminal: graphemes and control sequences come apart cleanly, and dropping the sequences leaves the text", "statement": "graphemes with AnsiEscapeSequences, AnsiEscapeSequences8Bit or both, on any number of pieces of valid text with control sequences between them (pieces without ESC; no prepended character before an 8-bit sequence): the tokens are the graphemes of each piece cut by itself, and the sequences, in order. A client who drops the tokens beginning with a control byte (ESC; a C1 byte) has exactly the text left, and one who keeps only these has exactly the sequences.", "quantifier": "all lists of pieces and sequences of any length, all settings of the two options", "why_tests_cant": "pieces, sequences and their order are unbounded; a sequence's end can depend on what follows it", "anchors": ["graphemes/iterator.go: Iterator.Next, AnsiEscapeSequences, AnsiEscapeSequences8Bit", "graphemes/ansi.go", "graphemes/ansi8.go"]}
{"id": "C88", "title": "What a word looks like: a grammar of word tokens", "statement": "words, on valid UTF-8 without a zero width joiner right before a pictograph: a text is one word exactly when it is a line ending (CR LF together), spaces and then marks, two regional indicators, one character of any other kind, or a word proper; marks may follow every character but a line ending. A word proper is a sequence of letters, digits, katakana and connectors, katakana not next to letters or digits, with at most one punctuation mark between two of them (apostrophe or full stop between letters or between digits, colon between letters, comma between digits, quotation mark between Hebrew letters), and possibly an apostrophe after a final Hebrew letter. The words of a text are, from the front, the longest pieces of these shapes. So a word with a letter or digit in it has no space, line ending or other symbol in it, and does not begin with punctuation.", "quantifier": "all well-formed texts of any length without joined pictographs", "why_tests_cant": "words have no length limit, and any number of marks can stand between any two characters; the grammar is exact in both directions", "anchors": ["words/splitfunc.go: splitFunc", "words/iterator.go: FromBytes", "words/trie.go"]}
{"id": "C89", "title": "What a phrase looks like: a grammar of phrase tokens", "statement": "phrases, on valid UTF-8 in which a zero width joiner right before a pictograph belongs to a letter, digit, space, connector or pictograph (as in every emoji sequence): a text is one phrase exactly when it is a line ending (CR LF together), two regional indicators, one character of any other kind, or a phrase proper; marks may follow every character but a line ending. A phrase proper is a sequence of letters, pictographs, digits, spaces, katakana and connectors, where katakana go only with katakana and connectors, and connectors not with spaces; with at most one punctuation mark between two letters or two digits, as in words. The phrases of a text are, from the front, the longest pieces of these shapes.", "quantifier": "all well-formed texts of any length with that use of joiners", "why_tests_cant": "phrases have no length limit, and any number of marks can stand between any two characters; the grammar is exact in both directions", "anchors": ["phrases/splitfunc.go: SplitFunc", "phrases/iterator.go: FromBytes", "phrases/trie.go"]}
{"id": "C90", "title": "How sentences end, and how the next one begins", "statement": "sentences, on valid UTF-8: every sentence but the last ends with a paragraph separator (CR, LF, NEL, U+2028, U+2029), or with a terminator followed by closing characters and then spaces (each with any marks). In the latter case the next sentence does not begin with a mark, a space, a separator, a terminator or a comma-like character; and if the terminator is a full stop, the first letter that follows is not a small one. Conversely, after a terminator, closing characters and at least one space a sentence does end, unless the next character is one of those or the terminator is a full stop and the next letter a small one. A text without terminators and separators is one sentence.", "quantifier": "all well-formed texts of any length", "why_tests_cant": "the closing characters, spaces, marks and the characters skipped before a small letter are unbounded on both sides of the boundary", "anchors": ["sentences/splitfunc.go: splitFunc", "sentences/iterator.go: FromBytes"]}
{"id": "C91", "title": "An edit does not move boundaries far away from it", "statement": "On valid UTF-8, whether there is a boundary between a stretch of text `near` and the stretch `next` after it does not depend on what stands before `near` or after `next`, provided they hold a settling character. Graphemes: `near` holds a character that is not an extending mark, a zero-width joiner or a flag letter, `next` any character. Words and phrases: `near` holds a character that is not a mark, a flag letter or punctuation that may stand inside a word or number (MidLetter, MidNum, MidNumLet and quotes), `next` one that is not a mark or such punctuation. Sentences: `near` holds a character that is not a mark, a full stop, a closing character or a space, `next` a letter, a terminator or a separator.", "quantifier": "all well-formed texts of any length on both sides, all near and next stretches with a settling character, all edits outside them", "why_tests_cant": "the text that is replaced is arbitrary and unbounded on both sides of the boundary", "anchors": ["graphemes/splitfunc.go: splitFunc", "words/splitfunc.go: splitFunc", "phrases/splitfunc.go: splitFunc", "sentences/splitfunc.go: splitFunc"]}
{"id": "C92", "title": "A boundary found in a short stretch is a safe place to cut any text that holds it", "statement": "On valid UTF-8, let `near` and `next` hold settling characters as in C91. If the tokens of `near ++ next`, on its own, come apart between `near` and `next`, then in every text b ++ near ++ next ++ a the tokens are those of b ++ near followed by those of next ++ a. So the two parts may be cut separately (in parallel, or only the part that was edited again).", "quantifier": "all well-formed b and a of any length, all stretches near and next with settling characters; all four packages", "why_tests_cant": "b and a are arbitrary and unbounded; one unlucky context would make parallel or incremental cutting wrong", "anchors": ["graphemes/iterator.go: FromBytes", "words/iterator.go: FromBytes", "phrases/iterator.go: FromBytes", "sentences/iterator.go: FromBytes"]}
{"id": "C93", "title": "Exactly where sentences end", "statement": "sentences, on valid UTF-8: there is a boundary between two non-empty parts s and y... of a text if and only if s ends with a paragraph separator and the boundary is not inside CR LF; or s ends with a terminator, closing characters and spaces (each with any marks), y can begin a sentence (it is not a mark, a space, a separator, a terminator or a comma-like character), and none of these holds: y is a closing character and no space stands between; y is a digit right after a full stop; y is a capital right after a cased letter and a full stop; the terminator is a full stop and the first letter of y... is a small one.", "quantifier": "all well-formed texts of any length and all positions in them", "why_tests_cant": "the marks, closing characters, spaces and skipped characters around the boundary are unbounded", "anchors": ["sentences/splitfunc.go: splitFunc", "sentences/splitfunc.go: subsequent", "sentences/iterator.go: FromBytes"]}
{"id": "C94", "title": "With middle joiners, too, boundaries are settled locally", "statement": "words with Joiners{Middle: m} (the space not in m, no leading joiners), on valid UTF-8: if `near` and `next` each hold a settling character as in C91 that is not one of the joiners, then whether there is a boundary between them does not depend on what stands before `near` or after `next`; and if near ++ next by itself comes apart there, any text that holds it may be cut there in two and the parts tokenised separately with the same joiners.", "quantifier": "all lists of middle joiners without the space, all well-formed texts of any length around the stretch", "why_tests_cant": "the joiners, and the text on both sides, are arbitrary", "anchors": ["words/joiners.go: Joiners", "words/iterator.go: Iterator.Joiners", "words/splitfunc.go: splitFunc"]}
