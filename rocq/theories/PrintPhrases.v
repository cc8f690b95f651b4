(** The text the generator writes for package phrases is phrases/trie.go. *)
From Verif Require Import Base Trie SpecData Triegen GenMain GenParse Print PrintCheck PrintSame SourcePhrases.
From Verif Require Import TablePhrases.
Local Open Scope N_scope.

Lemma phrases_sizes : sizes_are (arr_len phrasesValues) (arr_len phrasesIndex) 95616 4 2 = true.
Proof. vm_compute. reflexivity. Qed.
Lemma phrases_text : check_text Phrase (map fst phrases_data) 95616 0x71d55844642e4474 4 2 (blocks_of phrasesValues) (blocks_of phrasesIndex) phrases_lines = true.
Proof. vm_cast_no_check (eq_refl true). Qed.
