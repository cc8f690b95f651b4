(** C29: a token re-tokenises to itself. *)
From Verif Require Import Base SpecIter SpecApi ApiFacts ApiInst Engine CutApi.
From Verif Require GraphemesEngine Graphemes Words WordsIter WordsEngine WordsCut Sentences SentencesEngine SentencesCut Phrases PhrasesEngine PhrasesCut JoinersBounds.

Theorem C29_graphemes : forall d fuel l t, length d < fuel -> tokens graphemes_api fuel (Graphemes.FromBytes d) = Ok l -> In t l ->
  tokens graphemes_api fuel (Graphemes.FromBytes t) = Ok [t].
Proof.
  intros d fuel l t Hf Hl Ht. refine (retokenise graphemes_api_ok (false, false) _ _ (Graphemes.FromBytes d) (Graphemes.FromBytes t) fuel l t _ _ eq_refl eq_refl Hf Hl Ht); auto.
  - exact g_cut_split.
  - exact (so_eof _ GraphemesEngine.g_split_ok).
Qed.
Print Assumptions C29_graphemes.
(** words: with any joiners whatever, the same for the text and for the token *)
Theorem C29_words : forall j d fuel l t, length d < fuel -> tokens words_api fuel (Words.setJoiners (Words.FromBytes d) j) = Ok l -> In t l ->
  tokens words_api fuel (Words.setJoiners (Words.FromBytes t) j) = Ok [t].
Proof.
  intros j d fuel l t Hf Hl Ht. refine (retokenise words_api_ok j _ _ (Words.setJoiners (Words.FromBytes d) j) (Words.setJoiners (Words.FromBytes t) j) fuel l t _ _ eq_refl eq_refl Hf Hl Ht); auto; try reflexivity.
  - apply w_isplit_cut; [exact (WordsCut.w_cut_split j)|exact (so_eof _ (WordsEngine.w_split_ok j))].
  - exact (JoinersBounds.isplit_cuts _ (so_eof _ (WordsEngine.w_split_ok j))).
Qed.
Print Assumptions C29_words.
Theorem C29_words_plain : forall d fuel l t, length d < fuel -> tokens words_api fuel (Words.FromBytes d) = Ok l -> In t l ->
  tokens words_api fuel (Words.FromBytes t) = Ok [t].
Proof. exact (C29_words (Some {| Words.Middle := []; Words.Leading := [] |})). Qed.
Print Assumptions C29_words_plain.
Theorem C29_sentences : forall d fuel l t, length d < fuel -> tokens sentences_api fuel (Sentences.FromBytes d) = Ok l -> In t l ->
  tokens sentences_api fuel (Sentences.FromBytes t) = Ok [t].
Proof.
  intros d fuel l t Hf Hl Ht. refine (retokenise sentences_api_ok tt _ _ (Sentences.FromBytes d) (Sentences.FromBytes t) fuel l t I I eq_refl eq_refl Hf Hl Ht).
  - exact SentencesCut.s_cut_split.
  - exact (so_eof _ SentencesEngine.s_split_ok).
Qed.
Print Assumptions C29_sentences.
Theorem C29_phrases : forall d fuel l t, length d < fuel -> tokens phrases_api fuel (Phrases.FromBytes d) = Ok l -> In t l ->
  tokens phrases_api fuel (Phrases.FromBytes t) = Ok [t].
Proof.
  intros d fuel l t Hf Hl Ht. refine (retokenise phrases_api_ok tt _ _ (Phrases.FromBytes d) (Phrases.FromBytes t) fuel l t I I eq_refl eq_refl Hf Hl Ht).
  - exact PhrasesCut.p_cut_split.
  - exact (so_eof _ PhrasesEngine.p_split_ok).
Qed.
Print Assumptions C29_phrases.

(** "A.) b! C": the lower case letter after the full stop is looked up beyond ")" and the space *)
Example C29_case : tokens sentences_api 20 (Sentences.FromBytes [65; 46; 41; 32; 98; 33; 32; 67]%N) = Ok [[65; 46; 41; 32; 98; 33; 32]; [67]]%N
  /\ tokens sentences_api 20 (Sentences.FromBytes [65; 46; 41; 32; 98; 33; 32]%N) = Ok [[65; 46; 41; 32; 98; 33; 32]]%N
  /\ tokens words_api 20 (Words.FromBytes [97; 39; 98; 39; 32; 0xE2; 0x80]%N) = Ok [[97; 39; 98]; [39]; [32; 0xE2; 0x80]]%N
  /\ tokens words_api 20 (Words.FromBytes [32; 0xE2; 0x80]%N) = Ok [[32; 0xE2; 0x80]]%N.
Proof. repeat split; vm_compute; reflexivity. Qed.

(** With the escape sequence option it fails: ESC ] 0 before CAN is a token (an unterminated string ends before CAN), alone it is three. *)
Theorem C29_ansi_refuted : exists d t l, tokens graphemes_api 20 (Graphemes.setAnsi (Graphemes.FromBytes d) true false) = Ok l /\ In t l
  /\ tokens graphemes_api 20 (Graphemes.setAnsi (Graphemes.FromBytes t) true false) <> Ok [t].
Proof.
  exists [0x1B; 0x5D; 0x30; 0x18]%N, [0x1B; 0x5D; 0x30]%N, [[0x1B; 0x5D; 0x30]; [0x18]]%N. split; [vm_compute; reflexivity|]. split; [left; reflexivity|].
  vm_compute. discriminate.
Qed.
Print Assumptions C29_ansi_refuted.
