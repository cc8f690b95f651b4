(** The generator, run on the properties of package sentences, gives the tables of sentences/trie.go. *)
From Verif Require Import Base Trie Triegen TriegenCheck.
From Verif Require Import TableSentences.
Local Open Scope N_scope.

(** The size and the checksum are those in the comment above sentencesValues in sentences/trie.go. *)
Lemma sentences_reproduced : check sentencesValues sentencesIndex 357%nat 32%nat 50688 0xcadfb7ac79c3db52 = true.
Proof. vm_cast_no_check (eq_refl true). Qed.
