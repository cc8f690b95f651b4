(** The text the generator writes for package words is words/trie.go. *)
From Verif Require Import Base Trie SpecData Triegen GenMain GenParse Print PrintCheck PrintSame SourceWords.
From Verif Require Import TableWords.
Local Open Scope N_scope.

Lemma words_sizes : sizes_are (arr_len wordsValues) (arr_len wordsIndex) 100608 4 2 = true.
Proof. vm_compute. reflexivity. Qed.
Lemma words_text : check_text Word (map fst words_data) 100608 0x15f1c04c89caf743 4 2 (blocks_of wordsValues) (blocks_of wordsIndex) words_lines = true.
Proof. vm_cast_no_check (eq_refl true). Qed.
