(** C51: the text of trie.go, read as Go, declares the tables. *)
From Coq Require Import String.
From Verif Require Import Base Trie Triegen SpecUtf8 SpecUcd SpecData SpecDataFile SpecFiles SpecTriegen SpecTrieHash SpecGenerate GenMain GenParse Crc64.
From Verif Require Import TriegenFacts TriegenExt TriegenIns GenFacts DataFacts MainFacts FilesExist SpecGoSource Print PrintRead PrintWritten PrintCheck PrintSame PrintCommitted PropTriegen PropTables PropFiles.
From Verif Require SourceGraphemes SourceWords SourceSentences SourcePhrases TableGraphemes TableWords TableSentences TablePhrases PrintGraphemes PrintWords PrintSentences PrintPhrases.
From Coq Require Import Permutation.
Local Open Scope N_scope.

(** [array_of ds n a]: the array n that ds declares has the length and the elements of a.  [printable]: letters, digits and underscores, not all of
    them underscores. *)
Theorem C51_array_of : forall ds n a, array_of ds n a <-> exists t es, In (Var n (arr_len a) t es) ds /\ forall i v, i < arr_len a -> arr_get a i = Ok v -> In (i, v) es \/ (v = 0 /\ forall x, ~ In (i, x) es).
Proof.
  intros ds n a. split.
  - intros (f & (t & es & I & E) & G). exists t, es. split; [exact I|]. intros i v Hi Gi. rewrite (G i Hi) in Gi. injection Gi as <-. exact (E i Hi).
  - intros (t & es & I & E). exists (fun i => match arr_get a i with Ok v => v | _ => 0 end).
    assert (G : forall i, i < arr_len a -> exists v, arr_get a i = Ok v) by (intros i Hi; unfold arr_get; apply N.ltb_lt in Hi; rewrite Hi; eexists; reflexivity). split.
    + exists t, es. split; [exact I|]. intros i Hi. destruct (G i Hi) as (v & Ev). rewrite Ev. exact (E i v Hi Ev).
    + intros i Hi. destruct (G i Hi) as (v & ->). reflexivity.
Qed.

(** What the generator writes for a family of properties is a Go file, however gofmt lays it out: its package, its type, a constant for each property
    with the bit of the property, and two arrays, which are those of C44 and C45.  With fewer than eight properties, the block numbers have to fit a byte. *)
Theorem C51_written : forall H p props t out, family props -> props <> [] -> Forall printable (map fst props) -> NoDup (map no_underscores (map fst props)) -> generates props (Ok t) ->
  (8 <= length props)%nat \/ (forall i v, arr_get (g_index (Gen H t)) i = Ok v -> v < 256) ->
  tokens out = tokens (writeTrie H p (sortStrings (map fst props)) t) ->
  exists ds, read_go out = Some ds /\ package_is ds (package_name p) /\ In (Type_ (str "property") (inttype (length props))) ds /\
    (forall n rs i, In (n, rs) props -> rank (map fst props) n i -> constant_is ds (str "_" ++ no_underscores n) (2 ^ N.of_nat i)) /\
    array_of ds (package_name p ++ str "Values") (g_values (Gen H t)) /\ array_of ds (package_name p ++ str "Index") (g_index (Gen H t)).
Proof. exact written. Qed.

(** The committed files.  [tables_in]: the file declares the package, exactly these constants, and these two arrays. *)
Definition tables_in (text name : bytes) (constants : list (bytes * N)) (values index : arr) : Prop :=
  exists ds, read_go text = Some ds /\ package_is ds name /\ (forall n v, constant_is ds n v <-> In (n, v) constants) /\ array_of ds (name ++ str "Values") values /\ array_of ds (name ++ str "Index") index.
Lemma tables_in_ok : forall p names constants size checksum vsize isize vs is lines, names_b names = true -> tables_b (property_width (length names)) vs is = true -> powers 0 names = constants ->
  check_text p names size checksum vsize isize (blocks_of vs) (blocks_of is) lines = true -> tables_in (source_text lines) (package_name p) constants vs is.
Proof.
  intros p names constants size checksum vsize isize vs is lines Nb Tb <- C. destruct (committed p names size checksum vsize isize vs is lines Nb Tb C) as (ds & R & K & _ & Co & A & B). exists ds. repeat (split; [assumption|]). exact B.
Qed.

Theorem C51_graphemes : tables_in (source_text SourceGraphemes.graphemes_lines) (str "graphemes")
  [(str "_CR", TableGraphemes._CR); (str "_Control", TableGraphemes._Control); (str "_Extend", TableGraphemes._Extend); (str "_ExtendedPictographic", TableGraphemes._ExtendedPictographic); (str "_InCBConsonant", TableGraphemes._InCBConsonant); (str "_InCBExtend", TableGraphemes._InCBExtend); (str "_InCBLinker", TableGraphemes._InCBLinker); (str "_L", TableGraphemes._L); (str "_LF", TableGraphemes._LF); (str "_LV", TableGraphemes._LV); (str "_LVT", TableGraphemes._LVT); (str "_Prepend", TableGraphemes._Prepend); (str "_RegionalIndicator", TableGraphemes._RegionalIndicator); (str "_SpacingMark", TableGraphemes._SpacingMark); (str "_T", TableGraphemes._T); (str "_V", TableGraphemes._V); (str "_ZWJ", TableGraphemes._ZWJ)]
  TableGraphemes.graphemesValues TableGraphemes.graphemesIndex.
Proof.
  refine (tables_in_ok Grapheme (map fst graphemes_data) _ _ _ _ _ _ _ _ _ _ _ PrintGraphemes.graphemes_text); [vm_compute; reflexivity|vm_cast_no_check (eq_refl true)|vm_compute; reflexivity].
Qed.
Theorem C51_words : tables_in (source_text SourceWords.words_lines) (str "words")
  [(str "_ALetter", TableWords._ALetter); (str "_BleveIdeographic", TableWords._BleveIdeographic); (str "_CR", TableWords._CR); (str "_DoubleQuote", TableWords._DoubleQuote); (str "_Extend", TableWords._Extend); (str "_ExtendNumLet", TableWords._ExtendNumLet); (str "_ExtendedPictographic", TableWords._ExtendedPictographic); (str "_Format", TableWords._Format); (str "_HebrewLetter", TableWords._HebrewLetter); (str "_Katakana", TableWords._Katakana); (str "_LF", TableWords._LF); (str "_MidLetter", TableWords._MidLetter); (str "_MidNum", TableWords._MidNum); (str "_MidNumLet", TableWords._MidNumLet); (str "_Newline", TableWords._Newline); (str "_Numeric", TableWords._Numeric); (str "_RegionalIndicator", TableWords._RegionalIndicator); (str "_SingleQuote", TableWords._SingleQuote); (str "_WSegSpace", TableWords._WSegSpace); (str "_ZWJ", TableWords._ZWJ)]
  TableWords.wordsValues TableWords.wordsIndex.
Proof.
  refine (tables_in_ok Word (map fst words_data) _ _ _ _ _ _ _ _ _ _ _ PrintWords.words_text); [vm_compute; reflexivity|vm_cast_no_check (eq_refl true)|vm_compute; reflexivity].
Qed.
Theorem C51_sentences : tables_in (source_text SourceSentences.sentences_lines) (str "sentences")
  [(str "_ATerm", TableSentences._ATerm); (str "_CR", TableSentences._CR); (str "_Close", TableSentences._Close); (str "_Extend", TableSentences._Extend); (str "_Format", TableSentences._Format); (str "_LF", TableSentences._LF); (str "_Lower", TableSentences._Lower); (str "_Numeric", TableSentences._Numeric); (str "_OLetter", TableSentences._OLetter); (str "_SContinue", TableSentences._SContinue); (str "_STerm", TableSentences._STerm); (str "_Sep", TableSentences._Sep); (str "_Sp", TableSentences._Sp); (str "_Upper", TableSentences._Upper)]
  TableSentences.sentencesValues TableSentences.sentencesIndex.
Proof.
  refine (tables_in_ok Sentence (map fst sentences_data) _ _ _ _ _ _ _ _ _ _ _ PrintSentences.sentences_text); [vm_compute; reflexivity|vm_cast_no_check (eq_refl true)|vm_compute; reflexivity].
Qed.
Theorem C51_phrases : tables_in (source_text SourcePhrases.phrases_lines) (str "phrases")
  [(str "_ALetter", TablePhrases._ALetter); (str "_CR", TablePhrases._CR); (str "_DoubleQuote", TablePhrases._DoubleQuote); (str "_Extend", TablePhrases._Extend); (str "_ExtendNumLet", TablePhrases._ExtendNumLet); (str "_ExtendedPictographic", TablePhrases._ExtendedPictographic); (str "_Format", TablePhrases._Format); (str "_HebrewLetter", TablePhrases._HebrewLetter); (str "_Katakana", TablePhrases._Katakana); (str "_LF", TablePhrases._LF); (str "_MidLetter", TablePhrases._MidLetter); (str "_MidNum", TablePhrases._MidNum); (str "_MidNumLet", TablePhrases._MidNumLet); (str "_Newline", TablePhrases._Newline); (str "_Numeric", TablePhrases._Numeric); (str "_RegionalIndicator", TablePhrases._RegionalIndicator); (str "_SingleQuote", TablePhrases._SingleQuote); (str "_WSegSpace", TablePhrases._WSegSpace); (str "_ZWJ", TablePhrases._ZWJ)]
  TablePhrases.phrasesValues TablePhrases.phrasesIndex.
Proof.
  refine (tables_in_ok Phrase (map fst phrases_data) _ _ _ _ _ _ _ _ _ _ _ PrintPhrases.phrases_text); [vm_compute; reflexivity|vm_cast_no_check (eq_refl true)|vm_compute; reflexivity].
Qed.

(** From files that say what the Unicode properties are, the generator writes the committed trie.go of each package, up to layout. *)
Definition writes_file (p : package) (lines : list string) : Prop :=
  forall tf tr emoji core breaks ee ec eb ideo r,
    file_says emoji ee -> emoji_file ee -> file_says core ec -> incb_file ec -> file_says breaks eb -> break_file (family_of p) eb -> ideographs ideo ->
    main_writes tf tr crc64 p emoji core breaks ideo r -> exists out, r = Ok out /\ same_but_layout out (source_text lines).
Lemma writes_file_ok : forall p values index size checksum vsize isize lines,
  sorted_b (map fst (family_of p)) = true -> (length (family_of p) <= 64)%nat -> regenerates (family_of p) values index size checksum ->
  sizes_are (arr_len values) (arr_len index) size vsize isize = true ->
  check_text p (map fst (family_of p)) size checksum vsize isize (blocks_of values) (blocks_of index) lines = true -> writes_file p lines.
Proof.
  intros p values index size checksum vsize isize lines Sd L R Sz C tf tr emoji core breaks ee ec eb ideo r Fe Ee Fc Ec Fb Eb Id Wr.
  destruct (main_holds tf tr p emoji core breaks ee ec eb ideo Fe Fc Fb Ee Ec Eb Id) as (props & P & Hp).
  assert (NP : forall r', r' = Panic \/ r' = OutOfFuel -> ~ main_generates tf tr p emoji core breaks ideo r').
  { intros r' Q G. destruct (from_files_ok tf tr p values index size checksum R emoji core breaks ee ec eb ideo r' Fe Ee Fc Ec Fb Eb Id G) as (t & -> & _). destruct Q; discriminate. }
  destruct Wr as [G|G|props' t Q G]; [exfalso; apply (NP Panic); [left; reflexivity|exact G]|exfalso; apply (NP OutOfFuel); [right; reflexivity|exact G]|].
  rewrite P in Q. injection Q as <-. eexists. split; [reflexivity|]. destruct (R props (Ok t) Hp G) as (t' & Et & _ & Gn). injection Et as <-. rewrite (sorted_names _ _ Sd Hp).
  eapply same_text; [exact (proj1 (generates_full _ _ _ Sd L Hp G))|exact Gn|exact Sz|exact C].
Qed.
Theorem C51_graphemes_written : writes_file Grapheme SourceGraphemes.graphemes_lines.
Proof. refine (writes_file_ok Grapheme _ _ _ _ _ _ _ _ _ C46_graphemes PrintGraphemes.graphemes_sizes PrintGraphemes.graphemes_text); [vm_compute; reflexivity|cbv [length family_of graphemes_data]; lia]. Qed.
Theorem C51_words_written : writes_file Word SourceWords.words_lines.
Proof. refine (writes_file_ok Word _ _ _ _ _ _ _ _ _ C46_words PrintWords.words_sizes PrintWords.words_text); [vm_compute; reflexivity|cbv [length family_of words_data]; lia]. Qed.
Theorem C51_sentences_written : writes_file Sentence SourceSentences.sentences_lines.
Proof. refine (writes_file_ok Sentence _ _ _ _ _ _ _ _ _ C46_sentences PrintSentences.sentences_sizes PrintSentences.sentences_text); [vm_compute; reflexivity|cbv [length family_of sentences_data]; lia]. Qed.
Theorem C51_phrases_written : writes_file Phrase SourcePhrases.phrases_lines.
Proof. refine (writes_file_ok Phrase _ _ _ _ _ _ _ _ _ C46_phrases PrintPhrases.phrases_sizes PrintPhrases.phrases_text); [vm_compute; reflexivity|cbv [length family_of phrases_data]; lia]. Qed.

(** There are such files, and the generator can run on them. *)
Example C51_case : forall tf tr p, exists emoji core breaks ee ec eb ideo r,
  file_says emoji ee /\ emoji_file ee /\ file_says core ec /\ incb_file ec /\ file_says breaks eb /\ break_file (family_of p) eb /\ ideographs ideo /\ main_writes tf tr crc64 p emoji core breaks ideo r.
Proof.
  intros tf tr p. destruct (C47_case tf tr p) as (emoji & core & breaks & ee & ec & eb & ideo & r & Fe & Ee & Fc & Ec & Fb & Eb & Id & G).
  exists emoji, core, breaks, ee, ec, eb, ideo. inversion G as [Q|Q|props r' Q G']; subst.
  - exists Panic. do 7 (split; [assumption|]). apply writes_panic. exact G.
  - exists OutOfFuel. do 7 (split; [assumption|]). apply writes_stuck. exact G.
  - destruct r as [t| |]; [|exists Panic; do 7 (split; [assumption|]); apply writes_panic; exact G|exists OutOfFuel; do 7 (split; [assumption|]); apply writes_stuck; exact G].
    exists (Ok (writeTrie crc64 p (sortStrings (map fst props)) t)). do 7 (split; [assumption|]). exact (writes_text tf tr crc64 p emoji core breaks ideo props t Q G').
Qed.

(** The three properties of C45 meet the hypotheses of C51_written, with the layout as it is printed; the constants are _a, _ab and _b. *)
Example C51_three : exists t, generates three (Ok t) /\ family three /\ Forall printable (map fst three) /\ NoDup (map no_underscores (map fst three)) /\
  (forall i v, arr_get (g_index (Gen crc64 t)) i = Ok v -> v < 256) /\
  exists ds, read_go (writeTrie crc64 Word (sortStrings (map fst three)) t) = Some ds /\ constant_is ds (str "_ab") 2 /\ array_of ds (str "wordsValues") (g_values (Gen crc64 t)).
Proof.
  destruct C45_case as (F & G & _ & _). destruct (C45_tables three _ F G) as (t & Et & _). rewrite Et in G. exists t. split; [exact G|]. split; [exact F|].
  assert (Pr : Forall printable (map fst three)).
  { repeat (apply Forall_cons; [split; [repeat (apply Forall_cons; [reflexivity|]); apply Forall_nil|eexists; split; [left; reflexivity|discriminate]]|]). apply Forall_nil. }
  assert (Nd : NoDup (map no_underscores (map fst three))) by (apply no_repeats_ok; vm_compute; reflexivity).
  split; [exact Pr|]. split; [exact Nd|].
  assert (Sm : forall i v, arr_get (g_index (Gen crc64 t)) i = Ok v -> v < 256).
  { apply (index_small crc64 t 256); [exact (proj1 (proj1 (generates_trie three t F G)))| |reflexivity].
    assert (B : match inserts NewTrie [(0x41, 6); (0x42, 4); (0x1F600, 2); (0xE9, 1)] with Ok t => (let '(_, b) := buildTrie crc64 t in forallb (forallb (fun v => v <? 256)) (b_index b)) | _ => false end = true) by (vm_compute; reflexivity).
    rewrite Et in B. exact B. }
  split; [exact Sm|]. destruct (C51_written crc64 Word three t _ F ltac:(discriminate) Pr Nd G (or_intror Sm) eq_refl) as (ds & R & _ & _ & K & A & _).
  exists ds. split; [exact R|]. split; [|exact A]. apply (K [0x61; 0x62] [0x41; 0x1F600] 1%nat); [right; left; reflexivity|].
  apply position_rank; [exact (proj1 F)|]. reflexivity.
Qed.

(** The index is written with the type of the values: with fewer than eight properties and many blocks, the file does not compile. *)
Theorem C51_few : forall H p props t out, family props -> props <> [] -> Forall printable (map fst props) -> generates props (Ok t) ->
  (length props < 8)%nat -> (exists i v, arr_get (g_index (Gen H t)) i = Ok v /\ 256 <= v) ->
  tokens out = tokens (writeTrie H p (sortStrings (map fst props)) t) -> read_go out = None.
Proof. exact unfit. Qed.
(** Such a family: block number i of code points holds the bits of i. *)
Definition crowd : list N := concat (map (fun i => map (fun j => 0x10000 + 64 * i + j) (filter (N.testbit i) [0; 1; 2; 3; 4; 5; 6; 7; 8])) (map N.of_nat (seq 1 300))).
Theorem C51_any_refuted : ~ forall p props t, family props -> props <> [] -> Forall printable (map fst props) -> NoDup (map no_underscores (map fst props)) -> generates props (Ok t) ->
  read_go (writeTrie crc64 p (sortStrings (map fst props)) t) <> None.
Proof.
  intros A. set (props := [(str "A", crowd)]).
  assert (F : family props).
  { split; [repeat constructor; intros []|]. split; [cbn; lia|]. intros n rs [I|[]]. injection I as <- <-. apply Forall_forall. intros r Ir. unfold crowd in Ir. apply in_concat in Ir as (l & I1 & I2).
    apply in_map_iff in I1 as (i & <- & I1). apply in_map_iff in I1 as (k & <- & I1). apply in_seq in I1. apply in_map_iff in I2 as (j & <- & I2). apply filter_In in I2 as [I2 _]. right. cbn [In] in I2. lia. }
  assert (Pr : Forall printable (map fst props)) by (constructor; [split; [repeat constructor|exists 0x41; split; [left; reflexivity|discriminate]]|constructor]).
  assert (G : generates props (trie_of (iotasByRune (iotasByProperty props) props))) by (apply (generates_intro props props); apply Permutation_refl).
  destruct (C45_tables props _ F G) as (t & Et & _).
  assert (B : match trie_of (iotasByRune (iotasByProperty props) props) with Ok t => (let '(_, b) := buildTrie crc64 t in existsb (existsb (fun v => 256 <=? v)) (b_index b)) | _ => false end = true) by (vm_cast_no_check (eq_refl true)).
  rewrite Et in B, G. refine (A Word props t F ltac:(discriminate) Pr _ G _); [repeat constructor; intros []|].
  refine (C51_few crc64 Word props t _ F ltac:(discriminate) Pr G _ _ eq_refl); [cbn; lia|]. apply index_large; [exact (proj1 (proj1 (generates_trie props t F G)))|exact B].
Qed.
(** Two names that differ only in underscores give one constant twice. *)
Theorem C51_names_refuted : exists props t, family props /\ Forall printable (map fst props) /\ generates props (Ok t) /\ map fst props = [str "A_B"; str "AB"] /\
  read_go (writeTrie crc64 Word (sortStrings (map fst props)) t) = None.
Proof.
  set (props := [(str "A_B", [0x41]); (str "AB", [0x42])]).
  assert (F : family props).
  { split; [repeat constructor; cbn [In map fst props]; intuition discriminate|]. split; [cbn; lia|]. intros n rs [I|[I|[]]]; injection I as <- <-; (apply Forall_cons; [left; reflexivity|apply Forall_nil]). }
  assert (G : generates props (trie_of (iotasByRune (iotasByProperty props) props))) by (apply (generates_intro props props); apply Permutation_refl).
  destruct (C45_tables props _ F G) as (t & Et & _).
  assert (B : match trie_of (iotasByRune (iotasByProperty props) props) with Ok t => match read_go (writeTrie crc64 Word (sortStrings (map fst props)) t) with None => true | _ => false end | _ => false end = true) by (vm_compute; reflexivity).
  rewrite Et in B, G. exists props, t. split; [exact F|]. split.
  { repeat (apply Forall_cons; [split; [repeat (apply Forall_cons; [reflexivity|]); apply Forall_nil|exists 0x41; split; [left; reflexivity|discriminate]]|]). apply Forall_nil. }
  split; [exact G|]. split; [reflexivity|]. destruct (read_go _); [discriminate B|reflexivity].
Qed.

Print Assumptions C51_array_of.
Print Assumptions C51_written.
Print Assumptions C51_graphemes.
Print Assumptions C51_words.
Print Assumptions C51_sentences.
Print Assumptions C51_phrases.
Print Assumptions C51_graphemes_written.
Print Assumptions C51_words_written.
Print Assumptions C51_sentences_written.
Print Assumptions C51_phrases_written.
Print Assumptions C51_few.
Print Assumptions C51_any_refuted.
Print Assumptions C51_names_refuted.
