(** The text the generator writes for package graphemes is graphemes/trie.go. *)
From Verif Require Import Base Trie SpecData Triegen GenMain GenParse Print PrintCheck PrintSame SourceGraphemes.
From Verif Require Import TableGraphemes.
Local Open Scope N_scope.

Lemma graphemes_sizes : sizes_are (arr_len graphemesValues) (arr_len graphemesIndex) 61760 4 1 = true.
Proof. vm_compute. reflexivity. Qed.
Lemma graphemes_text : check_text Grapheme (map fst graphemes_data) 61760 0xaf733ba94cd94ba6 4 1 (blocks_of graphemesValues) (blocks_of graphemesIndex) graphemes_lines = true.
Proof. vm_cast_no_check (eq_refl true). Qed.
