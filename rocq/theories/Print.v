(** Model of what the generator writes: internal/gen/triegen/print.go and writeTrie of internal/gen/main.go:400-470, up to format.Source.
    The templates are given here as the text they produce for one trie and one compaction, which is how main.go:443 calls Gen; Template.v has
    text/template, and C81 shows that the templates of print.go produce this text. *)
From Coq Require Import String.
From Verif Require Import Base Trie Triegen SpecData GenMain GenParse.
Local Open Scope N_scope.

(** * fmt: %x, %d and the flags in use.  With a zero flag the width counts the digits without 0x. *)
Definition hexdigit (d : N) : N := if d <? 10 then 0x30 + d else 0x57 + d.
Fixpoint radix (base : N) (fuel : nat) (n : N) (acc : bytes) : bytes :=
  match fuel with
  | O => acc
  | S f => let acc := hexdigit (n mod base) :: acc in if n / base =? 0 then acc else radix base f (n / base) acc
  end.
Definition hex (n : N) : bytes := radix 16 (S (N.size_nat n)) n [].
Definition dec (n : N) : bytes := radix 10 (S (N.size_nat n)) n [].
Definition pad (w : nat) (s : bytes) : bytes := repeat 0x30 (w - length s) ++ s.
Definition fmt_x (n : N) : bytes := str "0x" ++ hex n.
Definition fmt_0x (w : nat) (n : N) : bytes := str "0x" ++ pad w (hex n).

(** One line of output. *)
Definition ln (s : bytes) : bytes := s ++ [10].
Definition cat (l : list bytes) : bytes := concat l.

(** print.go:55-73 printValues and print.go:75-96 printIndex: [per] entries to a line at most, values of at least [digits] digits.  A row of
    IndexBlocks holds 0 where printIndex finds no child (Triegen.v), and both are skipped. *)
Fixpoint print_entries (per digits : nat) (i : nat) (boff : N) (nl : bool) (values : list N) : bytes :=
  match values with
  | [] => []
  | v :: r =>
    let nl := (i mod per =? 0)%nat || nl in
    if v =? 0 then print_entries per digits (S i) boff nl r
    else (if nl then [10] else []) ++ [9] ++ fmt_0x 2 (boff + N.of_nat i) ++ str ":" ++ fmt_0x digits v ++ str ", " ++ print_entries per digits (S i) boff false r
  end.
Definition print_rows (per digits : nat) (n : N) (values : list N) : bytes :=
  [9] ++ str "// Block " ++ fmt_x n ++ str ", offset " ++ fmt_x (n * N.of_nat blockSize) ++ print_entries per digits 0 (n * N.of_nat blockSize) false values.
Definition printValues (n : N) (values : list N) : bytes := print_rows 6 4 n values.
Definition printIndex (n : N) (row : list N) : bytes := print_rows 8 2 n row.
Fixpoint print_all (f : N -> list N -> bytes) (n : N) (blocks : list (list N)) : bytes :=
  match blocks with [] => [] | b :: r => ln (f n b) ++ print_all f (n + 1) r end.

(** print.go:104-106 psize: %.2f of n/1024, exact in a float64 and rounded half to even. *)
Definition psize (n : N) : bytes :=
  let q := n * 100 / 1024 in let m := n * 100 mod 1024 in
  let h := if (512 <? m) || ((m =? 512) && N.odd q) then q + 1 else q in
  dec n ++ str " bytes (" ++ dec (h / 100) ++ str "." ++ pad 2 (dec (h mod 100)) ++ str " KiB)".

(** main.go:91-93 PackageName, main.go:70-81 URL; strings.Title of the former. *)
Definition package_name (p : package) : bytes := match p with Grapheme => str "graphemes" | Word => str "words" | Sentence => str "sentences" | Phrase => str "phrases" end.
Definition package_title (p : package) : bytes := match p with Grapheme => str "Graphemes" | Word => str "Words" | Sentence => str "Sentences" | Phrase => str "Phrases" end.
Definition url (p : package) : bytes :=
  str "https://www.unicode.org/Public/17.0.0/ucd/auxiliary/" ++ match p with Grapheme => str "Grapheme" | Word | Phrase => str "Word" | Sentence => str "Sentence" end ++ str "BreakProperty.txt".

(** print.go:161-224 lookupTemplate, for one trie: ASCIIBlock and StarterBlock are the arrays (print.go:26-29), ValueType is property (triegen.go:377-387). *)
Definition lookup_text (name : bytes) : bytes :=
  let values := name ++ str "Values" in let index := name ++ str "Index" in
  let tab n := repeat 9 (N.to_nat n) in
  let cont v n := cat [ln (tab 2 ++ str "if " ++ v ++ str " < 0x80 || 0xC0 <= " ++ v ++ str " {");
                       ln (tab 3 ++ str "return 0, " ++ n ++ str " // Illegal UTF-8: not a continuation byte."); ln (tab 2 ++ str "}")] in
  let short n := cat [ln (tab 2 ++ str "if len(s) < " ++ n ++ str " {"); ln (tab 3 ++ str "return 0, 0"); ln (tab 2 ++ str "}")] in
  let first := cat [ln (tab 2 ++ str "i := " ++ index ++ str "[c0]"); ln (tab 2 ++ str "c1 := s[1]")] in
  let next op c n := cat [ln (tab 2 ++ str "o " ++ op ++ str " uint32(i)<<6 + uint32(c" ++ c ++ str ")"); ln (tab 2 ++ str "i = " ++ index ++ str "[o]"); ln (tab 2 ++ str "c" ++ n ++ str " := s[" ++ n ++ str "]")] in
  let last c n := ln (tab 2 ++ str "return t.lookupValue(uint32(i), c" ++ c ++ str "), " ++ n) in
  cat [ln []; ln (str "// lookup returns the trie value for the first UTF-8 encoding in s and");
       ln (str "// the width in bytes of this encoding. The size will be 0 if s does not");
       ln (str "// hold enough bytes to complete the encoding. len(s) must be greater than 0.");
       ln (str "func (t *" ++ name ++ str "Trie) lookup(s []byte) (v property, sz int) {");
       ln (tab 1 ++ str "c0 := s[0]");
       ln (tab 1 ++ str "switch {");
       ln (tab 1 ++ str "case c0 < 0x80: // is ASCII");
       ln (tab 2 ++ str "return " ++ values ++ str "[c0], 1");
       ln (tab 1 ++ str "case c0 < 0xC2:");
       ln (tab 2 ++ str "return 0, 1  // Illegal UTF-8: not a starter, not ASCII.");
       ln (tab 1 ++ str "case c0 < 0xE0: // 2-byte UTF-8"); short (str "2"); first; cont (str "c1") (str "1"); last (str "1") (str "2");
       ln (tab 1 ++ str "case c0 < 0xF0: // 3-byte UTF-8"); short (str "3"); first; cont (str "c1") (str "1"); next (str ":=") (str "1") (str "2"); cont (str "c2") (str "2"); last (str "2") (str "3");
       ln (tab 1 ++ str "case c0 < 0xF8: // 4-byte UTF-8"); short (str "4"); first; cont (str "c1") (str "1"); next (str ":=") (str "1") (str "2"); cont (str "c2") (str "2");
       next (str "=") (str "2") (str "3"); cont (str "c3") (str "3"); last (str "3") (str "4");
       ln (tab 1 ++ str "}"); ln (tab 1 ++ str "// Illegal rune"); ln (tab 1 ++ str "return 0, 1"); ln (str "}")].

(** print.go:114-157 trieTemplate, for one trie and one compaction, whose handler is that of triegen.go:177. *)
Definition trie_head (name title : bytes) (size checksum : N) : bytes :=
  cat [ln []; ln (str "// " ++ name ++ str "Trie. Total size: " ++ psize size ++ str ". Checksum: " ++ pad 8 (hex checksum) ++ str ".");
       ln (str "type " ++ name ++ str "Trie struct { }"); ln [];
       ln (str "// func new" ++ title ++ str "Trie(i int) *" ++ name ++ str "Trie { ");
       ln (str "// " ++ [9] ++ str "return &" ++ name ++ str "Trie{}"); ln (str "// }"); ln [];
       ln (str "// lookupValue determines the type of block n and looks up the value for b.");
       ln (str "func (t *" ++ name ++ str "Trie) lookupValue(n uint32, b byte) property {");
       ln ([9] ++ str "switch { "); ln ([9; 9] ++ str "default:"); ln ([9; 9; 9] ++ str "return property(" ++ name ++ str "Values[n<<6+uint32(b)])"); ln ([9] ++ str "}"); ln (str "}")].
(** print.go:146-150 and print.go:152-156. *)
Definition array_text (name comment : bytes) (f : N -> list N -> bytes) (size : N) (blocks : list (list N)) : bytes :=
  let n := N.of_nat (length blocks) in let entries := n * N.of_nat blockSize in
  cat [ln []; ln (str "// " ++ name ++ str ": " ++ dec n ++ str " blocks, " ++ dec entries ++ str " entries, " ++ dec (entries * size) ++ str " bytes"); ln comment;
       ln (str "var " ++ name ++ str " = [" ++ dec entries ++ str "]property {"); print_all f 0 blocks; ln (str "}")].

(** main.go:400-440 writeTrie, first part: the package clause, the type and the constants. *)
Definition inttype (n : nat) : bytes := if (n <? 8)%nat then str "uint8" else if (n <? 16)%nat then str "uint16" else if (n <? 32)%nat then str "uint32" else str "uint64".
(** strings.ReplaceAll(property, "_", ""). *)
Definition no_underscores (s : bytes) : bytes := filter (fun c => negb (c =? 0x5F)) s.
Definition const_lines (names : list bytes) : bytes :=
  match names with
  | [] => []
  | n :: r => ln (str "_" ++ no_underscores n ++ str " property = 1 << iota") ++ cat (map (fun n => ln (str "_" ++ no_underscores n)) r)
  end.
Definition head_text (p : package) (names : list bytes) : bytes :=
  cat [ln (str "package " ++ package_name p); ln []; ln (str "// generated by github.com/clipperhouse/uax29/v2"); ln (str "// from " ++ url p); ln [];
       ln (str "type property " ++ inttype (length names)); ln []; ln (str "const ("); const_lines names; ln (str ")")].

(** bytes.ReplaceAll with a pattern that is not empty: leftmost matches that do not overlap. *)
Fixpoint starts (p s : bytes) : bool := match p, s with [], _ => true | x :: p', y :: s' => (x =? y) && starts p' s' | _ :: _, [] => false end.
Fixpoint replace (skip : nat) (old new s : bytes) : bytes :=
  match s with
  | [] => []
  | c :: r => match skip with
              | S k => replace k old new r
              | O => if starts old s then new ++ replace (length old - 1) old new r else c :: replace 0 old new r
              end
  end.
Definition replaceAll (old new s : bytes) : bytes := replace 0 old new s.
(** main.go:448-465: the edits that make the lookup generic. *)
Definition edits (name s : bytes) : bytes :=
  let typename := name ++ str "Trie" in
  let s := replaceAll (str "type " ++ typename ++ str " struct") (str "// type " ++ typename ++ str " struct") s in
  let s := replaceAll (str "(t *" ++ typename ++ str ") lookup(s []byte)") (str "lookup[T ~string | ~[]byte](s T)") s in
  let s := replaceAll (str "(t *" ++ typename ++ str ") lookupValue") (str "lookupValue") s in
  replaceAll (str "t.lookupValue(") (str "lookupValue(") s.

(** The text for given tables, before the edits. *)
Definition file_text (p : package) (names : list bytes) (size checksum vsize isize : N) (values index : list (list N)) : bytes :=
  let name := package_name p in
  head_text p names ++ lookup_text name ++ trie_head name (package_title p) size checksum
  ++ array_text (name ++ str "Values") (str "// The third block is the zero block.") printValues vsize values
  ++ array_text (name ++ str "Index") (str "// Block 0 is the zero block.") printIndex isize index.

(** triegen.go:163-200 Gen and print.go:17-53 print, called from main.go:400-465: the text given to format.Source; [names] are the keys of
    iotasByProperty, sorted, and [H] is the hash of the builder. *)
Definition writeTrie (H : list N -> N) (p : package) (names : list bytes) (t : node) : bytes :=
  let '(h, b) := buildTrie H t in
  let imax := N.max (b_maxHandle b + 1) (N.of_nat (length (b_index b) - 1 - blockOffset)) in
  edits (package_name p) (file_text p names (Size t b) h (intSize (maxValue t 0)) (intSize imax) (b_values b) (b_index b)).

(** What main writes for a package, before format.Source; maps are visited in any order. *)
Inductive main_writes (tf tr : bytes -> bytes) (H : list N -> N) (p : package) (emoji incb break : bytes) (ideo : list N) : res bytes -> Prop :=
  | writes_panic : main_generates tf tr p emoji incb break ideo Panic -> main_writes tf tr H p emoji incb break ideo Panic
  | writes_stuck : main_generates tf tr p emoji incb break ideo OutOfFuel -> main_writes tf tr H p emoji incb break ideo OutOfFuel
  | writes_text : forall props t, main_properties tf tr p emoji incb break ideo = Ok props -> generates props (Ok t) ->
      main_writes tf tr H p emoji incb break ideo (Ok (writeTrie H p (sortStrings (map fst props)) t)).
