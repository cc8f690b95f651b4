(** The generator, run on the properties of package words, gives the tables of words/trie.go. *)
From Verif Require Import Base Trie Triegen TriegenCheck.
From Verif Require Import TableWords.
Local Open Scope N_scope.

(** The size and the checksum are those in the comment above wordsValues in words/trie.go. *)
Lemma words_reproduced : check wordsValues wordsIndex 372%nat 32%nat 100608 0x15f1c04c89caf743 = true.
Proof. vm_cast_no_check (eq_refl true). Qed.
