(** The text the generator writes for package sentences is sentences/trie.go. *)
From Verif Require Import Base Trie SpecData Triegen GenMain GenParse Print PrintCheck PrintSame SourceSentences.
From Verif Require Import TableSentences.
Local Open Scope N_scope.

Lemma sentences_sizes : sizes_are (arr_len sentencesValues) (arr_len sentencesIndex) 50688 2 2 = true.
Proof. vm_compute. reflexivity. Qed.
Lemma sentences_text : check_text Sentence (map fst sentences_data) 50688 0xcadfb7ac79c3db52 2 2 (blocks_of sentencesValues) (blocks_of sentencesIndex) sentences_lines = true.
Proof. vm_cast_no_check (eq_refl true). Qed.
