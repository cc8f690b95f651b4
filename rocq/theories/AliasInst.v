(** The four packages: what AliasFacts.v asks of [over]. *)
From Verif Require Import Base SpecIter SpecApi ApiFacts ApiInst Alias SpecAlias AliasFacts.

Lemma graphemes_write : writing_is_harmless graphemes_api over_graphemes.
Proof. apply (writing_ok graphemes_api_ok over_graphemes). intros it d k H. repeat split; apply H. Qed.
Lemma graphemes_transform : transforms_in_place graphemes_api over_graphemes.
Proof. apply (transform_ok graphemes_api_ok over_graphemes). intros it d k H. repeat split; apply H. Qed.
Lemma words_write : writing_is_harmless words_api over_words.
Proof. apply (writing_ok words_api_ok over_words). intros it d k H. repeat split; apply H. Qed.
Lemma words_transform : transforms_in_place words_api over_words.
Proof. apply (transform_ok words_api_ok over_words). intros it d k H. repeat split; apply H. Qed.
Lemma sentences_write : writing_is_harmless sentences_api over_sentences.
Proof. apply (writing_ok sentences_api_ok over_sentences). intros it d k H. repeat split. Qed.
Lemma sentences_transform : transforms_in_place sentences_api over_sentences.
Proof. apply (transform_ok sentences_api_ok over_sentences). intros it d k H. repeat split. Qed.
Lemma phrases_write : writing_is_harmless phrases_api over_phrases.
Proof. apply (writing_ok phrases_api_ok over_phrases). intros it d k H. repeat split. Qed.
Lemma phrases_transform : transforms_in_place phrases_api over_phrases.
Proof. apply (transform_ok phrases_api_ok over_phrases). intros it d k H. repeat split. Qed.
