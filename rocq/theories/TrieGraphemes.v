(** The generator, run on the properties of package graphemes, gives the tables of graphemes/trie.go. *)
From Verif Require Import Base Trie Triegen TriegenCheck.
From Verif Require Import TableGraphemes.
Local Open Scope N_scope.

(** The size and the checksum are those in the comment above graphemesValues in graphemes/trie.go. *)
Lemma graphemes_reproduced : check graphemesValues graphemesIndex 232%nat 21%nat 61760 0xaf733ba94cd94ba6 = true.
Proof. vm_cast_no_check (eq_refl true). Qed.
