(** C47: the generator reads the Unicode data files right, and from them makes the committed tables. *)
From Verif Require Import Base Trie Triegen SpecUtf8 SpecUcd SpecData SpecDataFile SpecFiles SpecTrieHash SpecGenerate GenMain GenParse Crc64.
From Verif Require Import GenParseFacts GenFacts MainFacts DataFacts FilesExist PropTables.
From Verif Require TableGraphemes TableWords TableSentences TablePhrases.
From Coq Require Import Permutation.
Local Open Scope N_scope.

(** A file in the format of the database is read, without panic or error, into a map with one list for every name in the file, which has exactly the
    code points the file lists for that name. *)
Theorem C47_parse : forall tf tr f es, file_says f es ->
  exists m, parse tf tr f = Ok (Some m) /\ NoDup (map fst m) /\ (forall p, In p (map fst m) <-> named es p) /\ (forall p rs, In (p, rs) m -> forall cp, In cp rs <-> listed es p cp).
Proof. exact parse_ok. Qed.

(** "0041 ; A # x" and "0300..0302;InCB; Linker": the second has two fields. *)
Definition sample_file : bytes := [0x23; 0x20; 0x0A; 0x30; 0x30; 0x34; 0x31; 0x20; 0x3B; 0x20; 0x41; 0x20; 0x23; 0x20; 0x78; 0x0A; 0x0A;
  0x33; 0x30; 0x30; 0x2E; 0x2E; 0x33; 0x30; 0x32; 0x3B; 0x49; 0x6E; 0x43; 0x42; 0x3B; 0x20; 0x4C; 0x0A].
Definition sample_entries : list entry := [(0x41, 0x41, [0x41]); (0x300, 0x302, [0x49; 0x6E; 0x43; 0x42; 0x5F; 0x4C])].
Example C47_sample : file_says sample_file sample_entries /\ parse (fun s => s) (fun s => s) sample_file = Ok (Some [([0x41], [0x41]); ([0x49; 0x6E; 0x43; 0x42; 0x5F; 0x4C], [0x300; 0x301; 0x302])]).
Proof.
  split; [|vm_compute; reflexivity].
  assert (D : forall c, 0x30 <= c <= 0x39 -> digit c (c - 0x30)) by (intros c L; left; split; [exact L|reflexivity]).
  assert (H3 : forall a b c, 0x30 <= a <= 0x39 -> 0x30 <= b <= 0x39 -> 0x30 <= c <= 0x39 -> hexadecimal [a; b; c] (16 * (16 * (a - 0x30) + (b - 0x30)) + (c - 0x30))).
  { intros a b c A B C. apply (hex_more [a; b] _ c); [|exact (D c C)]. apply (hex_more [a] _ b); [|exact (D b B)]. apply hex_one. exact (D a A). }
  assert (Bl : blanks []) by constructor. assert (B1 : blanks [0x20]) by (constructor; [left; reflexivity|constructor]).
  apply (file_line [0x23; 0x20; 0x0A] _ [] sample_entries). { apply (line_comment [0x20]). constructor; [discriminate|constructor]. }
  apply (file_line [0x30; 0x30; 0x34; 0x31; 0x20; 0x3B; 0x20; 0x41; 0x20; 0x23; 0x20; 0x78; 0x0A] _ [(0x41, 0x41, [0x41])] _).
  { apply (line_entry [0x30; 0x30; 0x34; 0x31] [0x20] [0x20; 0x41; 0x20] [0x23; 0x20; 0x78] 0x41 0x41 [0x41]).
    - apply span_one. apply (hex_more [0x30; 0x30; 0x34] 4 0x31 1); [|apply (D 0x31); lia]. apply (H3 0x30 0x30 0x34); lia.
    - lia.
    - exact B1.
    - apply (label_one [0x20] [0x20] [0x41]); [exact B1|exact B1|]. split; [discriminate|constructor; [right; left; lia|constructor]].
    - constructor. repeat (apply Forall_cons; [split; discriminate|]). apply Forall_nil. }
  apply (file_line [0x0A] _ [] [(0x300, 0x302, [0x49; 0x6E; 0x43; 0x42; 0x5F; 0x4C])]); [apply line_blank|].
  apply (file_line (firstn 17 (skipn 17 sample_file)) [] [(0x300, 0x302, [0x49; 0x6E; 0x43; 0x42; 0x5F; 0x4C])] []); [|constructor].
  apply (line_entry ([0x33; 0x30; 0x30] ++ [0x2E; 0x2E] ++ [0x33; 0x30; 0x32]) [] ([] ++ [0x49; 0x6E; 0x43; 0x42] ++ [] ++ [0x3B] ++ [0x20] ++ [0x4C] ++ []) [] 0x300 0x302 ([0x49; 0x6E; 0x43; 0x42] ++ [0x5F] ++ [0x4C])).
  - apply span_range; [apply (H3 0x33 0x30 0x30); lia|apply (H3 0x33 0x30 0x32); lia|lia].
  - lia.
  - exact Bl.
  - apply label_two; try assumption; (split; [discriminate|]); repeat (apply Forall_cons; [unfold name_char; lia|]); apply Forall_nil.
  - constructor.
Qed.

(** From files that say what the Unicode properties are, and the tables of package unicode for ideographs, the generator gives the committed tables
    of each package: the same values, index, size and checksum, whatever the layout of the files and whatever order maps are visited in. *)
Definition from_files (tf tr : bytes -> bytes) (p : package) (values index : arr) (size checksum : N) : Prop :=
  forall emoji core breaks ee ec eb ideo r,
    file_says emoji ee -> emoji_file ee -> file_says core ec -> incb_file ec -> file_says breaks eb -> break_file (family_of p) eb -> ideographs ideo ->
    main_generates tf tr p emoji core breaks ideo r ->
    exists t, r = Ok t /\ distinct crc64 t /\ Gen crc64 t = {| g_values := values; g_index := index; g_size := size; g_checksum := checksum |}.

Lemma from_files_ok : forall tf tr p values index size checksum, regenerates (family_of p) values index size checksum -> from_files tf tr p values index size checksum.
Proof.
  intros tf tr p values index size checksum R emoji core breaks ee ec eb ideo r Fe Ee Fc Ec Fb Eb Id G.
  destruct (main_holds tf tr p emoji core breaks ee ec eb ideo Fe Fc Fb Ee Ec Eb Id) as (props & P & Hp).
  inversion G as [Q|Q|props' r' Q G']; subst; rewrite P in Q; try discriminate Q. injection Q as <-. exact (R props r Hp G').
Qed.

Theorem C47_graphemes : forall tf tr, from_files tf tr Grapheme TableGraphemes.graphemesValues TableGraphemes.graphemesIndex 61760 0xaf733ba94cd94ba6.
Proof. intros tf tr. exact (from_files_ok tf tr Grapheme _ _ _ _ C46_graphemes). Qed.
Theorem C47_words : forall tf tr, from_files tf tr Word TableWords.wordsValues TableWords.wordsIndex 100608 0x15f1c04c89caf743.
Proof. intros tf tr. exact (from_files_ok tf tr Word _ _ _ _ C46_words). Qed.
Theorem C47_sentences : forall tf tr, from_files tf tr Sentence TableSentences.sentencesValues TableSentences.sentencesIndex 50688 0xcadfb7ac79c3db52.
Proof. intros tf tr. exact (from_files_ok tf tr Sentence _ _ _ _ C46_sentences). Qed.
Theorem C47_phrases : forall tf tr, from_files tf tr Phrase TablePhrases.phrasesValues TablePhrases.phrasesIndex 95616 0x71d55844642e4474.
Proof. intros tf tr. exact (from_files_ok tf tr Phrase _ _ _ _ C46_phrases). Qed.

(** There are such files for every package, and the generator can run on them. *)
Example C47_case : forall tf tr p, exists emoji core breaks ee ec eb ideo r,
  file_says emoji ee /\ emoji_file ee /\ file_says core ec /\ incb_file ec /\ file_says breaks eb /\ break_file (family_of p) eb /\ ideographs ideo /\ main_generates tf tr p emoji core breaks ideo r.
Proof.
  intros tf tr p. destruct others_exist as (f & es & Hf & E & C). destruct ideographs_exist as (ideo & Id).
  assert (B : exists g eb, file_says g eb /\ break_file (family_of p) eb).
  { apply break_exists.
    - apply sorted_nodup, sorted_b_ok. destruct p; vm_compute; reflexivity.
    - apply Forall_forall. intros n I. apply is_name_ok. revert n I. apply forallb_forall. destruct p; vm_compute; reflexivity.
    - destruct p; vm_compute; reflexivity. }
  destruct B as (g & eb & Hg & Hb).
  destruct (main_holds tf tr p f f g es es eb ideo Hf Hf Hg E C Hb Id) as (props & P & _).
  exists f, f, g, es, es, eb, ideo. eexists. repeat (split; [assumption|]). eapply main_trie; [exact P|]. apply (generates_intro props props _ (Permutation_refl _) (Permutation_refl _)).
Qed.

(** The format matters. A last line that does not end in a newline is dropped without an error. *)
Theorem C47_last_line_refuted : ~ forall tf tr f es, file_says (f ++ [0x0A]) es ->
  exists m, parse tf tr f = Ok (Some m) /\ (forall p, In p (map fst m) <-> named es p).
Proof.
  intros W. destruct C47_sample as [S _].
  destruct (W (fun s => s) (fun s => s) (firstn 33 sample_file) sample_entries S) as (m & E & K).
  assert (E' : parse (fun s => s) (fun s => s) (firstn 33 sample_file) = Ok (Some [([0x41], [0x41])])) by (vm_compute; reflexivity). rewrite E' in E. injection E as <-.
  assert (I : named sample_entries [0x49; 0x6E; 0x43; 0x42; 0x5F; 0x4C]) by (exists 0x300, 0x302; right; left; reflexivity). apply K in I. destruct I as [I|[]]. discriminate I.
Qed.

(** And a semicolon in the comment of a line with one field changes the name: "0041 ; A # a;b" is read as "A # a_b". *)
Theorem C47_semicolon_refuted : exists f, f = [0x30; 0x30; 0x34; 0x31; 0x20; 0x3B; 0x20; 0x41; 0x20; 0x23; 0x20; 0x61; 0x3B; 0x62; 0x0A] /\
  parse (fun s => s) (fun s => s) f = Ok (Some [([0x41; 0x20; 0x23; 0x20; 0x61; 0x5F; 0x62], [0x41])]).
Proof. eexists. split; [reflexivity|]. vm_compute. reflexivity. Qed.

Print Assumptions C47_parse.
Print Assumptions C47_graphemes.
Print Assumptions C47_words.
Print Assumptions C47_sentences.
Print Assumptions C47_phrases.
Print Assumptions C47_last_line_refuted.
Print Assumptions C47_semicolon_refuted.
