(** The four lookups satisfy the contract the loops need. *)
From Verif Require Import Base ListFacts Trie LookupFacts TableFacts Engine.
From Verif Require TableGraphemes TableWords TableSentences TablePhrases.

Lemma lk_ok_of_tables : forall values index V, tables_ok values index V = true -> lk_ok (lookup values index).
Proof.
  intros values index V H d Hd. destruct d as [|c0 s]; [congruence|].
  destruct (lookup_spec values index V H c0 s) as (v & w & Hl & _ & _ & Hw & _ & _ & _ & Hs).
  exists v, w. auto.
Qed.

Lemma g_lk : lk_ok TableGraphemes.graphemes_lookup.
Proof. exact (lk_ok_of_tables _ _ _ g_tables_ok). Qed.
Lemma w_lk : lk_ok TableWords.words_lookup.
Proof. exact (lk_ok_of_tables _ _ _ w_tables_ok). Qed.
Lemma s_lk : lk_ok TableSentences.sentences_lookup.
Proof. exact (lk_ok_of_tables _ _ _ s_tables_ok). Qed.
Lemma p_lk : lk_ok TablePhrases.phrases_lookup.
Proof. exact (lk_ok_of_tables _ _ _ p_tables_ok). Qed.
