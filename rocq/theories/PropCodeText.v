(** C57.  From the text of the program to the standard: the loop [for it.Next() { use(it.Value()) }], run on the committed Go files, yields the segments
    of UAX #29; and for any bytes and settings it ends, does not panic and loses nothing.  ([segmentation_unique] of SegFacts.v: there is one segmentation.) *)
From Coq Require Import String.
From Verif Require Import SpecIter SpecApi ApiInst SpecUtf8 SpecRules SpecUcd SpecGraphemes SpecWords SpecSentences.
From Verif Require Import Base GoSyntax GoSem SpecCode SpecCodeText CodeTokens.
From Verif Require ProgGraphemes CodeGraphemes ProgSentences CodeSentences ProgPhrases CodePhrases ProgWords CodeWords PropConform.
Local Open Scope string_scope.
Local Open Scope list_scope.

Theorem C57_graphemes : exists p, ProgGraphemes.graphemes_code = Some p /\ text_conforms grapheme_decides p CodeGraphemes.graphemes_config /\ text_lossless p CodeGraphemes.graphemes_config.
Proof.
  exists ProgGraphemes.pg. split; [exact ProgGraphemes.graphemes_link|]. split.
  - apply (conform_run graphemes_api _ 5); [lia|exact CodeGraphemes.graphemes_is_model|]. intros cps fuel S L. destruct (PropConform.C05_graphemes_are_uax29 cps fuel S L) as (segs & H1 & H2 & _). eauto.
  - apply (lossless_run graphemes_api_ok _ 5); [lia|exact CodeGraphemes.graphemes_is_model].
Qed.
Print Assumptions C57_graphemes.
Theorem C57_words : exists p, ProgWords.words_code = Some p /\ forall nils, text_conforms word_decides p (CodeWords.words_config nils) /\ text_lossless p (CodeWords.words_config nils).
Proof.
  exists ProgWords.pw. split; [exact ProgWords.words_link|]. intros nils. split.
  - apply (conform_run words_api _ 7); [lia|exact (CodeWords.words_is_model nils)|]. intros cps fuel S L. destruct (PropConform.C06_words_are_uax29 cps fuel S L) as (segs & H1 & H2 & _). eauto.
  - apply (lossless_run words_api_ok _ 7); [lia|exact (CodeWords.words_is_model nils)].
Qed.
Print Assumptions C57_words.
Theorem C57_sentences : exists p, ProgSentences.sentences_code = Some p /\ text_conforms sentence_decides p no_config /\ text_lossless p no_config.
Proof.
  exists ProgSentences.ps. split; [exact ProgSentences.sentences_link|]. split.
  - apply (conform_run sentences_api _ 6); [lia|exact CodeSentences.sentences_is_model|]. intros cps fuel S L. destruct (PropConform.C07_sentences_are_uax29 cps fuel S L) as (segs & H1 & H2 & _). eauto.
  - apply (lossless_run sentences_api_ok _ 6); [lia|exact CodeSentences.sentences_is_model].
Qed.
Print Assumptions C57_sentences.
Theorem C57_phrases : exists p, ProgPhrases.phrases_code = Some p /\ text_conforms phrase_decides p no_config /\ text_lossless p no_config.
Proof.
  exists ProgPhrases.pp. split; [exact ProgPhrases.phrases_link|]. split.
  - apply (conform_run phrases_api _ 6); [lia|exact CodePhrases.phrases_is_model|]. intros cps fuel S L. destruct (PropConform.C08_phrases_are_tailored_words cps fuel S L) as (segs & H1 & H2 & _). eauto.
  - apply (lossless_run phrases_api_ok _ 6); [lia|exact CodePhrases.phrases_is_model].
Qed.
Print Assumptions C57_phrases.

(** "é" written with a combining accent, a space, and a byte that starts no character. *)
Example C57_case : runs (Str, [101; 204; 129; 32; 255]%N) 12 7 6 /\ runs (Str, encode [101; 769; 32]%N) 10 7 5 /\ scalars [101; 769; 32]%N
  /\ go_tokens ProgGraphemes.pg 10 7 (CodeGraphemes.graphemes_config ProgGraphemes.pg 10 7) 5 [] (Str, encode [101; 769; 32]%N) [] = Done [VData Str (encode [101; 769]%N); VData Str (encode [32]%N)]
  /\ go_tokens ProgGraphemes.pg 12 7 (CodeGraphemes.graphemes_config ProgGraphemes.pg 12 7) 6 [(true, false)] (Str, [101; 204; 129; 32; 255]%N) [] = Done [VData Str [101; 204; 129]%N; VData Str [32]%N; VData Str [255]%N]
  /\ go_tokens ProgWords.pw 12 7 (CodeWords.words_config true ProgWords.pw 12 7) 6 [] (Str, [101; 204; 129; 32; 255]%N) [] = Done [VData Str [101; 204; 129]%N; VData Str [32]%N; VData Str [255]%N].
Proof.
  split; [repeat split; cbn; try discriminate; lia|]. split; [repeat split; cbn; try discriminate; lia|]. split; [repeat (constructor; [unfold scalar; lia|]); constructor|]. vm_compute. repeat split; reflexivity.
Qed.
