# Formal model of clipperhouse/uax29 in Rocq (Coq 8.16.1)

## 1. Method

The Go source in /repo is read as text and transcribed, function by function, to total Gallina
functions (files `Base.v`, `Trie.v`, `Graphemes.v`, `Words.v`, `Sentences.v`, `Phrases.v`, `Ansi.v`,
`Scanner.v`, ...). Each definition cites the file and lines it models. Go behaviour that matters for the
properties is explicit:

* a byte is an `N`; a `string`/`[]byte` is a `list N`. The two instantiations of the Go generics have the
  same code, so one model stands for both (`nil` versus empty is kept where `bufio` observes it).
* every slice expression and every array index is *checked*: it yields `Panic` when out of range. So
  "does not panic" is a theorem about index arithmetic, not an artefact of a total model.
* a `for` loop is recursion on fuel; running out of fuel yields `OutOfFuel`, a value distinct from every
  real result. The theorems show it is never produced.
* `property` values are `N` bit masks with the numbering of `trie.go`; the four trie tables are transcribed
  entry by entry from `trie.go` by `tools/gen_tables.py` (generated `.v` files are committed). C51 proves that the
  text of the four `trie.go` files, read as Go, declares these constants and tables; what remains trusted is that `Source*.v` has that text.

Specifications are separate files that do not import the models: `SpecUtf8.v` (UTF-8), `SpecRules.v`
(regular expressions over classes, "first matching rule wins", segmentation), `SpecGraphemes.v`,
`SpecWords.v`, `SpecSentences.v`, `SpecPhrases.v` (transcriptions of the UAX #29 rule tables),
`SpecUcd*.v` (flat range tables code point -> class), `SpecAnsi.v` (ECMA-48 grammar).

## 2. Plan per property

| id | modelled | proof |
|----|----------|-------|
| C01-C04 | `Iterator` state, `Next`, `Value`, splitFunc loop, lookup, tables | progress invariant of each loop; no index out of range from a table check lifted by `forallb_forall`; induction on remaining length |
| C05 | `graphemes.Next` | invariant relating loop state to automata for the rule regexes over the *whole* text before the position; restart lemma at token starts |
| C06 | `words.Next` | as C05 plus: look-ahead jump equals stepping over ignored characters; WB4 as reduction of the text |
| C07 | `sentences.Next` | as C06; six history variables related to an automaton over the reduced text |
| C08 | `phrases.Next` | as C06 with the tailored rules |
| C09 | `lookup`, tables | finite table check lifted to all byte strings |
| C10 | `lookup`, tables, `SpecUcd` | sweep over all scalar values by `vm_compute` lifted by a lemma; prefix stability for arbitrary continuations |
| C11 | splitFunc of the four packages | loop invariant |
| C12 | same | simulation between `data` and `data ++ more` |
| C13, C14 | `bufio.Scanner` (Go standard library, modelled from its published source) with an arbitrary read schedule | invariant: buffer content is the unread rest of the delivered data; uses C11, C12, C15-C18 |
| C15-C18 | fast paths in `Next` | induction over the ASCII run; state-equivalence lemma for dropped context |
| C19-C22 | iterator as state machine over method calls | invariant by induction over the call list |
| C23, C24 | `ansi.go`, `ansi8.go` | equivalence with an inductive grammar |
| C25-C27 | `Next` with flags | C23/C24 plus "every cluster ends at a control"; C27 refuted by a witness, weaker form proved |
| C28 | corollary of C05-C08 | |
| C29 | splitFunc | simulation between `data` and `data[:advance]` |
| C30, C31 | rule tables of two packages | from C06/C08 by rule inclusion; C31 refuted by witnesses |
| C32, C43 | corollaries of C05-C08 and C12 | |
| C33-C37 | `Joiners`, `decodeRune` | simulation; witnesses for the refuted readings |
| C38 | `Iterator.Split` | refuted by a witness; positive form proved for texts where the fast path is off |
| C39, C40 | `bleve_compat.go` | equivalence with an inductive grammar over decoded properties |
| C41 | `filter.go` with letter/number predicates as parameters | induction |
| C42 | `internal/iterators/iterator.go`, arbitrary SplitFunc | induction |
| C44 | `triegen` with the hash as a parameter | invariant of block allocation under injectivity of the hash on the nodes that occur; refuted without that condition by a CRC-64 collision |
| C45 | last part of `generateTrie`, map iteration as an arbitrary permutation | sortedness; the trie is determined by the values assigned (extensionality of full tries) |
| C46 | C44/C45 with `hash/crc64` | the blocks of the committed tables describe a trie; a computation over the blocks (kernel conversion) shows that they stand in the order in which the generator allocates them, that their hashes differ, and that size and checksum agree; by extensionality and C10 it is the trie of the Unicode properties; C45 extends this to every order |
| C47 | parsing part of `generateTrie`, `getRuneRange`, assembly of the property map; `strings.Split`, `TrimSpace`, `strconv.ParseInt`, `bufio.ReadString` from their documentation; `unicode.Han`/`Hiragana` as a parameter | induction over the lines of a file in a grammar of the format; C46 for the tables |
| C48 | the split functions and iterators as in C29 | a rule's decision at a boundary does not change when the text is cut at a later boundary: look-ahead invariants for each rule set over the generic loop, then induction over the tokens; `_refuted` for parts that end in a truncated character (the condition on valid UTF-8 is needed) |
| C49 | the iterators once more with a step count (`Count*.v`: the definitions of the model in a counting monad; `C49_counts`: same results) | potential functions: a look-ahead over ignored characters is charged to these characters, each is passed by a bounded number of look-aheads (`CostScan.v`); induction over the loop and over the calls of Next; for sentences and for graphemes with options a quadratic bound, and families of texts for which no linear bound holds (`_refuted`) |
| C50 | the split functions and iterators as in C29 | a cut made without asking for more data does not depend on what follows (C06); a cut made only because the text ended leaves at most one more token: invariant over the generic loop (`Append.v`) with, for words and phrases, "only ignorable characters follow" and, for sentences, "no letter, terminator or separator follows"; induction over the tokens; `_refuted` for fewer tokens and for the escape sequence option |
| C51 | `writeTrie` and the printing templates (`Print.v`), the text of the four trie.go files (`Source*.v`, copied by `tools/gen_source.py`), a reader for the part of Go in use (`SpecGoSource.v`) | lexing is compositional over lines, so the tokens of the printed text are computed symbolically (`PrintTokens.v`, `PrintRead.v`); bounds on values and block numbers by invariants of the builder (`PrintGen.v`); printed and committed text compared line by line by computation (`PrintCheck.v`) |
| C52 | `bufio.Scanner` (`Scanner.v`), any number of calls of `Scan` (`SpecScanner.v`) | invariant over calls: the scanner is live or has ended with an error, and what is left is a suffix of the data (`ScannerProtocol.v`); that `Scan` was called is never forgotten |
| C53 | the text of the files (`CodeText.v`), a parser (`GoSyntax.v`) and an interpreter (`GoSem.v`) for the part of Go they use | symbolic execution of each function of the parsed text, loops by induction (`CodeG*.v`), then simulation over any sequence of calls (`CodeApi.v`) |
| C54 | as C53, for sentences and phrases | as C53 (`CodeS*.v`, `CodeP*.v`); in the split function the scan of SB8 and the look-ahead are loops of their own |
| C55 | as C53, for words with joiners and the Bleve functions | as C53 (`CodeW*.v`); the split function allocates a Joiners, so memory grows; the relation says which split function the iterator holds and that its Joiners stays where it is |
| C56 | as C53, for internal/iterators and filter.AlphaNumeric, and for words with split functions of the client's | symbolic execution (`CodeOther.v`, `CodeWordsAny.v`); the client's function is a value `VExt f` for any `f`; outcomes are compared, so panics too; the invariant keeps the position at or below the length, possibly negative after an overflow |
| C57 | the client's loop, run by the interpreter of C53 on the text of the four packages | induction over the rounds of the loop (`CodeTokens.v`): the interpreter's run is the model's by C53 to C55, and the model's tokens are the segments by C05 to C08 |
| C58 | the four reader.go, read as Go (`GoSyntax.v`); their few statements have a meaning of their own (`SpecCodeReader.v`: NewScanner, Split, the struct with the embedded scanner, the function literal); bufio.Scanner is `Scanner.v` | two runs of the scanner side by side that differ in the split function only (`CodeReader.v`): they agree as long as the two functions agree on data below 2^62 bytes, which C53 to C55 give; then C13 and C05 to C08 |
| C59 | generateTests with bufio.ScanLines, strings.Split, ParseInt (`GenTests.v`); the format of the test files (`SpecTestFile.v`) | induction over the lines, the marks and the code points (`GenTestsFacts.v`), then C05 to C07 and that UTF-8 is injective; `_refuted` for short code points |
| C60 | writeTests up to format.Source: the text, %#v of byte slices, bytes.ReplaceAll (`GenTests.v`); the form of the source (`SpecTestFile.v`) | what becomes of each piece of the text under a replacement, whatever follows it (`GenTestsWrite.v`); `_refuted` for comments with []uint8{ in them |
| C61 | the same programs as in C53 to C56, several clients with one memory and a schedule (`SpecShare.v`) | each call changes only the place of its iterator and adds to memory (`ShareG.v` to `ShareI.v`, from the runs of C53 to C56); the iterators' places differ, and a place that holds joiners is never an iterator's; induction over the schedule (`ShareFacts.v`) |
| C62 | an array, slices of it as windows with length and capacity, clients that write to tokens, a Reader that uses its buffer as scratch space (`Alias.v`) | what Next does depends on the text from pos on only, by the position form of the iterators (`AliasFacts.v`); two scanners that agree on the data still to be split agree for ever (`AliasScan.v`, simulation) |
| C63 | the split functions and the Scanner as before; the property is about what a split function has been given when it asks for more | when a rule asks for more, everything after the current character is ignorable (for SB8: neither letter nor terminator nor separator), so the token, or it and the next, reach the end of what was given, whatever follows (`Prompt.v`, `PromptWords.v`, `PromptSentences.v`); then induction over the client's loop (`LongFacts.v`) |
| C64 | the length of the Scanner's buffer, over any calls of Scan | the buffer grows only when it is full of data for which the split function asks for more, and C63 bounds that; invariant over the rounds of Scan (`BufferFacts.v`) |
| C65 | the tokens against the regular expression of UAX #29 Table 1c (`SpecCluster.v`) | a text matches the expression exactly when the rules join all its inner positions: one way by induction on the match, the other by an invariant on the shape of a text that holds together (`ClusterFacts.v`); then the longest match by C48 and C05 (`ClusterCut.v`) |
| C66 | the tokens of text without joining punctuation, as cuts between neighbouring characters (`SpecPlain.v`) | on such text every rule of the specification decides from the two neighbours (`PlainWords.v`, `PlainPhrases.v`, `PlainSentences.v`); then C06 to C08 and uniqueness; the ASCII classes by computation over the 128 characters and their pairs (`PlainApi.v`) |
| C67 | the tokens of arbitrary bytes, in terms of units and the characters they stand for (`SpecIll.v`) | the lookup of a unit is that of its character (`IllFacts.v`); the split loop on the bytes and on the characters run in lock step (`IllSim.v`, `IllSeek.v`, `IllRules.v`), for sentences with a letter in place of the tail (`IllSentences.v`); then C05 to C08 |
| C68 | pairs of texts with the same properties character by character; byte maps on ASCII letters and digits (`SpecSame.v`) | patterns, rules and segmentations respect a relation on characters that their classes respect (`SameFacts.v`, `SameRules.v`); with C67 for arbitrary bytes; the ASCII classes by computation over all pairs (`SameApi.v`) |
| C69 | Hangul syllables and their canonical decomposition (`SpecHangul.v`) | a pattern that sees a syllable only as its first or last jamo keeps its matches when characters are replaced by several (`HangulFacts.v`, any such replacement); the classes of all syllables and jamo by computation (`HangulProps.v`); rule by rule (`HangulRules.v`) |
| C70 | combining marks, characters that take them, respellings (`SpecMarks.v`) | the decisions on the text with and without marks agree: words and sentences because the text without ignored characters is the same, grapheme clusters pattern by pattern (`MarkFacts.v`, `MarkRules.v`); between a character and its marks the rules join; with C68 for the change of the letter |
| C71 | computations as trees of memory accesses, goroutines, races, what may be shared (`SpecSteps.v`, `SpecStepsShare.v`): the interpreter of `GoSem.v` again, clause by clause, with each access a step | the trees run as the interpreter does (`StepsRun.v`); a program run with other addresses makes the same accesses, up to the addresses (`StepsRel.v`, induction on the program); a simulation with one renaming of addresses per goroutine (`StepsSim.v`); clients of the packages and shared joiners (`StepsShare.v`) |
| C72 | what calls one after the other leave in memory, what can be found from a value, conversions in the text (`SpecAlloc.v`), over the parsed program texts | each call keeps an invariant on the iterator's struct and the number of structs (`AllocFacts.v`, `AllocG.v`, `AllocS.v`, `AllocP.v`, `AllocI.v`, `AllocW.v`), from the run lemmas of the code claims; induction on the calls; conversions by computation over the parsed text |
| C73 | canonical equivalence as a relation on texts (`SpecCanon.v`) over the mappings and combining classes of Unicode 15 (`SpecDecomp.v`) | a change in one place keeps a segmentation when it keeps the decisions around it (`CanonSeg.v`); the rules keep them when marks follow a character or change places (`CanonRules.v`, by an automaton for graphemes and by the removal of marks for the others); the tables have nothing else in them (`CanonTables.v`, by computation); Hangul from C69; induction on the equivalence |
| C74 | Normalization Form D as a function (`SpecNorm.v`) | it is a normal form: equivalent texts have the same, parts of a text in the form are in the form (`NormFacts.v`, with checks of the tables by computation); then C73 |
| C75 | simple case mappings (`SpecCase.v`, `SpecCaseTables.v`) | the tables keep the classes of graphemes and words (by computation), so C68's lemma on rules applies; for sentences the break rules are followed one by one: a break with small letters is a break with capitals, because SB7 with capitals is SB8 with small letters (`CaseFacts.v`) |
| C76 | the properties of Unicode 15.0 from Perl (`SpecUcd15.v`) and the changes since (`SpecSince.v`) | range tables are constant between their ends, so comparing at the ends compares everywhere (`SinceFacts.v`); with C10 |
| C77 | the Scanner once more with a step count (`CountScanner.v`), over the counting SplitFuncs of C49 | potential of the bytes waiting and to come; a round that asks for more costs at most a constant times what waits, which C64's prompt bounds by the next tokens; for sentences the look-ahead stays within the next sentence because the answer and the count do not change when more bytes follow (`WorkSentences.v`) |
| C78 | canonical composition as the standard defines it (`SpecNfc.v`) | composing gives an equivalent text (a mark slides to the letter that absorbs it); every part of a composed text is composed, because it is what some other decomposed text composes to (`NfcFacts.v`); with C73, as for C74 |
| C79 | `unix` writes LF for each line end of the Newline Guidelines (`SpecEndings.v`) | no rule looks past a line end (`EndingFacts.v`), and all line ends are treated alike but for CR before LF; one line end after the other, from the left, so that nothing before the place ends in CR (`EndingSeg.v`) |
| C80 | `strip` removes marks and format characters where the rules ignore them (`SpecInvis.v`) | the text is grouped into characters and what is removed after them; the rules up to WB4 and SB5 say the same on both texts, the later ones see the same reduced text (`InvisRules.v`, with the lemmas of C70) |
| C81 | the text of print.go (`SourcePrint.v`), text/template's lexer, parser and execution for the actions in use (`Template.v`), the data print hands over (`print_data`) | both templates are parsed by computation; execution is run symbolically over the builder's fields, and the concatenations on both sides are compared by reflection (`TemplateFacts.v`); each stuck range or condition is shown to succeed for arbitrary lists (`TemplateTotal.v`) |
| C82 | the builder with several tries, the ASCII block map, the handles and the lookup through a handle (`TriegenMany.v`) | invariant of computeOffsets over all tries: every map entry stands for one node, internal or root, whose block stays where it is (`TriegenShare.v`); a known trie is found again (`TriegenAgain.v`); bounds of all entries (`TriegenFit.v`, `TriegenSmall.v`) |
| C83 | the Compact option: Compacters as functions of what they have stored, the choice between them, offsets and cutoffs, the printed entries and the switch of lookupValue (`TriegenCompact.v`) | invariant of computeOffsets with one list of stored blocks for each Compacter (`TriegenCompactFacts.v`); the switch undoes the offsets (`TriegenCompactLookup.v`); without Compacters the builder is the embedding of that of C82 (`TriegenCompactSmall.v`) |
| C84 | no new code; emoji as shapes of code points in a specification of their own (`SpecEmoji.v`) | the decisions of UAX #29 computed along the elements of an emoji, in any context, and between two emoji (`EmojiFacts.v`, `EmojiGraphemes.v`, `EmojiWords.v`); then C05, C06 and C08 carry them to the tokens (`PropEmoji.v`) |
| C85 | no new code; cutting by longest match as a specification of its own (`SpecGreedy.v`) | a decision to join stays when text is appended, since the only rules that look ahead join (`GreedyFacts.v`); with C05-C08 and C48 the tokens are the longest matches (`PropGreedy.v`) |
| C86 | no new code; the spaces as a list, and how texts begin and end (`SpecSpace.v`) | the decision before and after a space computed for every context (`SpaceFacts.v`); where the rules break, C48 splits the tokens (`PropSpace.v`) |
| C87 | no new code; text for a terminal as pieces and sequences (`SpecStyled.v`) | induction over the pieces from C25-C27, and the first bytes of UTF-8 (`StyledFacts.v`, `PropStyled.v`) |
| C88 | no new code; a grammar of words as inductive predicates (`SpecShape.v`) | the decision of `WordFacts.v` as a disjunction, induction over the characters that are not marks and over the text (`ShapeFacts.v`), then C06 and C85 (`PropShape.v`) |
| C89 | no new code; a grammar of phrases as inductive predicates (`SpecPhraseShape.v`) | as C88 with pictographs as letters; the pictographs of the table are letters or of no class, by a sweep over the tables (`PhraseShapeFacts.v`), then C08 and C85 (`PropPhraseShape.v`) |
| C90 | no new code; ends and beginnings of sentences on the text with its marks (`SpecStop.v`) | inversion of the rule table of C07, with lemmas to go between a text and the text without its marks (`StopFacts.v`, `PropStop.v`) |
| C91 | no new code; boundaries at a byte offset (`SpecNest.v`) and settling characters (`SpecLocal.v`) | the summaries of the text before a position used for C05-C08 forget what stands before a settling character, by induction on the text after it (`LocalFacts.v`, `PropLocal.v`) |
| C92 | no new code; the vocabulary of C91 | the break of the stretch by itself carries over by the lemmas of C91, and the tokens on both sides are those of the parts by C48 (`PropResume.v`) |
| C93 | no new code; the ends of sentences and what stands against them, on the text with its marks (`SpecStop.v`, `SpecExact.v`) | the summary of the text before a position used for C07 holds exactly these facts, by induction from the right; then the decision is compared class by class (`ExactFacts.v`, `PropExact.v`) |
| C94 | no new code; the vocabulary of C91 with a list of joiners | as C91 and C92, on the decision with joiners of C35 (`JoinedLocal.v`, `PropJoinedLocal.v`) |

## 3. Trusted base

### 3.1 What has to be believed

* Coq's kernel and its virtual machine (`vm_compute` is used for finite sweeps, for example over all 0x110000 code points).
* `Print Assumptions` of every theorem named in MANIFEST.json prints "Closed under the global context". No axiom is used, neither
  an own one nor one of the standard library.
* Reading of the Go source: the model files are transcriptions and cite lines. For the packages graphemes, sentences, phrases, words, internal/iterators and filter this is not needed: C53 to C56 and, for the readers, C58 prove that the
  transcription is what the text means. What has to be believed instead is that `CodeText.v` holds the text (tools/gen_code.py copies it), and the
  reading of the Go language specification in `GoSyntax.v` and `GoSem.v` (for the readers also in `SpecCodeReader.v`).
* Reading of the texts of UAX #29, UAX #44, ECMA-48 and UTF-8 in the `Spec*` files.
* `SpecUcd.v` was produced by *inverting the tries in /repo*, because the Unicode data files are not available
  offline; it is a readable statement of what the tables say (C10 shows the trie code returns exactly that), not
  an independent copy of the UCD. C76 compares it, inside Coq, with the Unicode 15.0 data
  of the Perl installed here (`SpecUcd15.v`); what is left to believe are the values of the characters changed (listed in `SpecSince.v`) or added since.
* `SpecDecomp.v` (C73) and `SpecCaseTables.v` (C75) were produced from the Unicode 15 data of the Perl installed here by tools/gen_canon.py; nothing in /repo can be compared with them. So do the composition exclusions in `SpecNfc.v` (C78).
* The official break tests copied into `*/unicode_test.go` are run on the model inside Coq (`TestsRun.v`). They are tests of the transcription, not proofs.

### 3.2 Modelled from Go's standard library, not from /repo

`utf8.DecodeRune` (`Utf8.v`); `utf8.RuneLen`, `utf8.EncodeRune` (`GenTests.v`; `Triegen.v` takes the encoding from `SpecUtf8.v`); `bufio.Scanner` with its buffer growth, empty token rule and `ErrNoProgress` limit
(`Scanner.v`); `hash/crc64` with the ISO table (`Crc64.v`); `sort.Strings`, `strings.Split`, `strings.TrimSpace`, `strconv.ParseInt` as far as
`internal/gen/main.go` uses them (`GenParse.v`); `bufio.ScanLines`, `%#v` of byte slices and `bytes.ReplaceAll` (`GenTests.v`). An `io.Reader` is any sequence of reads its contract allows.
`unicode.IsLetter`, `unicode.IsNumber` and the predicates given to `filter.Wordlike` are parameters.

### 3.3 Coverage

| Go file | model |
|---|---|
| graphemes/splitfunc.go, iterator.go, ansi.go, ansi8.go | `Graphemes.v`, `Ansi.v` |
| words/splitfunc.go, seek.go, joiners.go, iterator.go, bleve_compat.go | `Words.v` |
| sentences/splitfunc.go, seek.go, iterator.go | `Sentences.v` |
| phrases/splitfunc.go, seek.go, iterator.go | `Phrases.v` |
| */reader.go | `Scanner.v`, `ReaderFacts.v`, `WordsReader.v` |
| */trie.go: lookup and the tables | `Trie.v`, `Table*.v` |
| internal/iterators/iterator.go, filter/filter.go | `Iterators.v`, `Filter.v` |
| the text of the files above (of trie.go the part before the arrays) | `CodeText.v`, `Source*.v`, `Prog*.v`; run in `Code*.v` |
| internal/gen/triegen/triegen.go, compact.go | `Triegen.v`, `TriegenRun.v`, `TriegenMany.v` (several tries), `TriegenCompact.v` (Compact option) |
| internal/gen/main.go: parsing, composing and inserting the data | `GenParse.v`, `GenMain.v` |
| internal/gen/triegen/print.go, internal/gen/main.go: writeTrie | `Print.v` |
| internal/gen/main.go: generateTests, writeTests | `GenTests.v` |

Not modelled: the download over HTTP, the writing of files and the running of gofmt in internal/gen/main.go (it is taken to change layout only);
text/template beyond the actions print.go uses (`Template.v`); `gen.go`, `doc.go`, `testdata/testdata.go`; tests, fuzz tests
and benchmarks.

Simplifications, each also stated where it is made:

* `string` and `[]byte` share one model. Aliasing (`Value` returns a part of the caller's slice) is not visible in it, because the code never writes to its input; `Alias.v` (C62) puts the array back, for clients that do write.
* Go's `int` is 64 bits wide; it is unbounded in the model except in `Iterators.v`, where an arbitrary SplitFunc can make it overflow (C42).
* In C61 clients take turns call by call. C71 cuts calls up into single memory accesses; those are atomic and happen in one order, which is Go's guarantee for programs without data races.
* Stack depth, allocation and time are not part of the model, except for the step counts of C49 and C77 and the size of the Scanner's buffer (C64). That count is an instrumented copy of the
  functions; `C49_counts` proves that the copy computes the same.

### 3.4 What the proofs found

Statements one could expect from the README or from the standard, and that are false of the model (each is a theorem `_refuted`):

* C14: after `ErrNoProgress` the tokens of a Reader need not be a prefix of the tokens of the data.
* C27: an escape sequence directly after a character of class Prepend (U+0600) is torn apart.
* C29: with AnsiEscapeSequences a token taken out of its text need not be one token.
* C31: a sentence boundary need not be a phrase boundary, and a word boundary need not be a grapheme boundary.
* C32: bytes of a truncated character at the end of the data are added to the token before them, even to a line feed.
* C35, C36, C37: joiners have no effect between a letter and a digit, for U+0020 in the fast path, for line ends, or when the leading joiner is Extend, Format or ZWJ.
* C38: the ASCII fast path of words does not consult a SplitFunc given by the caller.
* C42: an advance near 2^63 overflows the position in internal/iterators.
* C44: a CRC-64 collision in the trie generator would give wrong tables.
* C47: the parser of the data files drops a last line without newline, and a semicolon in a comment changes the name of the property.
* C48: a part of a text that ends in a truncated character has other boundaries.
* C49: sentences take quadratic time on a full stop followed by closing parentheses, graphemes with AnsiEscapeSequences on repeated `ESC ]`.
* C50: with AnsiEscapeSequences an appended byte can merge all tokens since an unterminated `ESC ]`; without the option one token of
  context is enough.
* C51: the index array has the type of the values, so with fewer than eight properties and more than 256 blocks the generated file does not
  compile; neither does it with two property names that differ only in underscores. The size in the comment of graphemes/trie.go counts one
  byte for an index entry, although the array has four.
* C52: after `ErrTooLong` a further call of Scan returns true, with a token cut off in the middle of a word.
* C59: a code point of fewer than four hexadecimal digits in a test file is dropped without an error; an empty line makes the generator panic. The official files have neither.
* C60: the two bytes.ReplaceAll of writeTests also act inside comments.
* C62: Value returns a slice whose capacity reaches to the end of the text, so `append(it.Value(), …)` overwrites the text that follows and changes the tokens to come. (Go's bytes package limits the capacity in such cases.)
* C63: a buffer with room for the longest word, sentence or phrase is not enough to read a text; two consecutive ones must fit, with three bytes to spare.
* C67: a character cut off at the end can undo a sentence boundary before it ("a. 1" followed by the byte E4 is one sentence, "a. 1" alone is two). A lead byte announcing more bytes than are left takes all of them into the last token, even letters.
* C68: changing the case of ASCII letters keeps the boundaries of words, but not those of sentences.
* C73: U+21AE (left right arrow with stroke) and its canonical decomposition U+2194 U+0338 are cut differently next to a zero width joiner, because only U+2194 is a pictograph; so NFD and NFC (C74, C78) can move a boundary there. This comes from the Unicode data; /repo follows it.
* C75: U+24C2 (capital M in a circle) is a pictograph and U+24DC, its small letter, is not, so `"Ⓜ" ZWJ "Ⓜ"` is one grapheme and its `strings.ToLower` two; U+0345 is a mark whose capital is a letter. Both follow from the Unicode data.
* C79: a form feed ends words and graphemes as a line feed does, but not sentences (the standard says so), although `words` calls both Newline.
* C80: a soft hyphen between two spaces parts them, so removing soft hyphens can change the words of a text (the standard says so).
* C81: the comment of Gen promises a function newNameTrie(x); the template has it only as a comment, so no generated file declares it.
* C82: the type of the handles is wide enough for the block numbers of the index and for the value blocks below the roots, but the number of a trie's ASCII blocks is left out of the maximum; with 129 tries that differ in one ASCII value the last handle is 257 in a uint8 (`C82_handles_refuted`). The repository passes one trie.
* C83: Offset and Cutoff of the Compacters are uint32 sums of their largest handles, without a check; a Compacter whose handles come close to 2^32 makes an index entry wrap to that of a plain block, and the lookup answers another character's value (`C83_offsets_refuted`). Nothing in the repository passes the option.
* C84: keycap emoji in a row are one word, as are pictographs that are also letters (U+2139, U+24C2); both follow from UAX #29 (`C84_words_refuted`). A flag after a lone regional indicator is cut in two (`C84_flag_refuted`).
* C85: with ill-formed text a token need not be the longest piece that is a token by itself: `a E2 20 62` begins with the word `a`, while `a E2` alone is one word (`C85_ill_formed_refuted`).
* C87: a control sequence between a letter and its combining accent keeps them apart: the tokens left after dropping the sequences are not the graphemes of the text that is left (`C87_graphemes_refuted`).
* C88: `a`, ZERO WIDTH JOINER, a pictograph is one word, so a pictograph can be part of a word that begins with a letter (`C88_joiner_refuted`).
* C89: `(`, ZERO WIDTH JOINER, a pictograph is one phrase (`C89_joiner_refuted`).
* C90: a terminator does not always end a sentence (`3.5`), and after an exclamation mark a small letter may begin the next one (`C90_terminator_refuted`).
* C91: one character on each side does not settle a boundary: a quote before a letter, flag letters, and the end of a sentence before digits (`C91_near_refuted`).
* C92: a stretch without a settling character does not tell where a text that holds it is cut (`C92_stretch_refuted`).
* C94: a joiner settles nothing, although a hyphen otherwise does (`C94_joiner_refuted`).

Seen and not stated as theorems: the loop over a code point range in internal/gen/main.go does not end when the range ends at 2^31-1 (int32).

### 3.5 Wrong programs

`seeded/run.py` applies edits to a copy of the model and rebuilds; `seeded/LOG.jsonl` has one line for each. "Caught" means that a proof of a
claim, or of a lemma it needs, no longer compiles. Where an edit survived, the claim it breaks was tightened or the edit is explained as harmless in the log.
`seeded/auto.py` makes small random edits (a comparison, a connective, a constant, a variable, a rule switched off) all over the model; its lines are those with ids `auto…`.
`seeded/text.py` makes random edits to the Go text itself (the lines held in `CodeText.v`), which the proofs of C53 to C57 read; its lines are those with ids `text…`. `seeded/reader_text.py` does the same with chosen edits of the reader.go files (C58, ids `rtext…`), `seeded/gen_tests.py` with the model of the test generator (C59 and C60, ids `gtests…`).
