(** C46: the committed tables are what the generator makes of the Unicode properties. *)
From Verif Require Import Base Trie Triegen SpecUtf8 SpecUcd SpecLookup SpecData SpecTriegen SpecTrieHash SpecGenerate GenMain Crc64.
From Verif Require Import TriegenCheck GenFacts DataFacts TrieGraphemes TrieWords TrieSentences TriePhrases UcdGraphemes UcdWords UcdSentences UcdPhrases LookupOnly.
From Verif Require TableGraphemes TableWords TableSentences TablePhrases.
From Coq Require Import Permutation.
Local Open Scope N_scope.

(** For lists of code points that hold the Unicode properties of the package, in any order and with any repetitions, and whatever order maps are visited in:
    the generator gives exactly the value table, the index table, the size and the checksum committed in the package's trie.go; and the hash of
    the generator told all blocks apart. *)
Definition regenerates (d : data) (values index : arr) (size checksum : N) : Prop :=
  forall props r, holds d props -> generates props r -> exists t, r = Ok t /\ distinct crc64 t /\ Gen crc64 t = {| g_values := values; g_index := index; g_size := size; g_checksum := checksum |}.

Lemma regenerated : forall d property values index size checksum,
  sorted_b (map fst d) = true -> (length d <= 64)%nat -> (forall cp, word 0 d cp = property cp) ->
  (forall l, assignable l -> (forall cp, scalar cp -> assigned l cp = property cp) ->
     exists t, inserts NewTrie l = Ok t /\ distinct crc64 t /\ Gen crc64 t = {| g_values := values; g_index := index; g_size := size; g_checksum := checksum |}) ->
  regenerates d values index size checksum.
Proof.
  intros d property values index size checksum S L W R props r HO [v1 v2 P1 P2].
  destruct (generates_visit _ _ _ (holds_family d props S L HO) P1 P2) as [A E].
  apply R; [exact A|]. intros cp Sc. rewrite E, (holds_word d props cp S L HO Sc). apply W.
Qed.

Theorem C46_graphemes : regenerates graphemes_data TableGraphemes.graphemesValues TableGraphemes.graphemesIndex 61760 0xaf733ba94cd94ba6.
Proof. apply (regenerated _ graphemes_property); [reflexivity|cbv [length graphemes_data]; lia|exact graphemes_word|exact (reproduces_ok _ _ _ _ _ _ _ graphemes_reproduced g_lookup_cp (lookup_only _ _ g_only))]. Qed.
Theorem C46_words : regenerates words_data TableWords.wordsValues TableWords.wordsIndex 100608 0x15f1c04c89caf743.
Proof. apply (regenerated _ words_property); [reflexivity|cbv [length words_data]; lia|exact words_word|exact (reproduces_ok _ _ _ _ _ _ _ words_reproduced w_lookup_cp (lookup_only _ _ w_only))]. Qed.
Theorem C46_sentences : regenerates sentences_data TableSentences.sentencesValues TableSentences.sentencesIndex 50688 0xcadfb7ac79c3db52.
Proof. apply (regenerated _ sentences_property); [reflexivity|cbv [length sentences_data]; lia|exact sentences_word|exact (reproduces_ok _ _ _ _ _ _ _ sentences_reproduced s_lookup_cp (lookup_only _ _ s_only))]. Qed.
Theorem C46_phrases : regenerates phrases_data TablePhrases.phrasesValues TablePhrases.phrasesIndex 95616 0x71d55844642e4474.
Proof. apply (regenerated _ phrases_property); [reflexivity|cbv [length phrases_data]; lia|exact phrases_word|exact (reproduces_ok _ _ _ _ _ _ _ phrases_reproduced p_lookup_cp (lookup_only _ _ p_only))]. Qed.

(** Each family has lists that hold it, and the generator can run on them. *)
Example C46_case : forall d, In d [graphemes_data; words_data; sentences_data; phrases_data] -> exists props r, holds d props /\ generates props r.
Proof.
  intros d I. exists (realise d). eexists. split.
  - apply realise_holds. apply sorted_nodup, sorted_b_ok. cbn [In] in I. repeat destruct I as [<-|I]; try reflexivity. contradiction.
  - apply (generates_intro (realise d) (realise d) _ (Permutation_refl _) (Permutation_refl _)).
Qed.
(** The data is not empty: U+0041 is in the lists for upper-case letters. *)
Example C46_upper : exists f, In ([0x55; 0x70; 0x70; 0x65; 0x72], f) sentences_data /\ f 0x41 = true /\ f 0x61 = false.
Proof. exists (fun cp => sb_beq (SB cp) SB_Upper). split; [|vm_compute; auto]. repeat (try (left; reflexivity); right). Qed.

Print Assumptions C46_graphemes.
Print Assumptions C46_words.
Print Assumptions C46_sentences.
Print Assumptions C46_phrases.
