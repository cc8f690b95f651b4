(** The finite check of LookupFacts for each of the four pairs of tables. *)
From Verif Require Import Base Trie LookupFacts.
From Verif Require TableGraphemes TableWords TableSentences TablePhrases.
Local Open Scope N_scope.

(** The property values that occur. *)
Definition gV : list N :=
  [0; 0x1; 0x2; 0x4; 0x8; 0x10; 0x24; 0x44; 0x80; 0x100; 0x200; 0x400; 0x800; 0x1000; 0x10020; 0x2000; 0x4000; 0x8000].
Definition wV : list N :=
  [0; 0x1; 0x2; 0x3; 0x4; 0x8; 0x10; 0x12; 0x20; 0x40; 0x41; 0x80; 0x100; 0x200; 0x202; 0x400; 0x800; 0x1000; 0x2000;
   0x4000; 0x8000; 0x10000; 0x20000; 0x40000; 0x80000].
Definition sV : list N :=
  [0; 0x1; 0x2; 0x4; 0x8; 0x10; 0x20; 0x40; 0x80; 0x100; 0x200; 0x400; 0x800; 0x1000; 0x2000].
Definition pV : list N :=
  [0; 0x1; 0x2; 0x4; 0x8; 0x10; 0x20; 0x21; 0x40; 0x80; 0x100; 0x200; 0x400; 0x800; 0x1000; 0x2000;
   0x4000; 0x8000; 0x10000; 0x20000; 0x40000].

Lemma g_tables_ok : tables_ok TableGraphemes.graphemesValues TableGraphemes.graphemesIndex gV = true.
Proof. apply (tables_fast_ok _ _ _ 233). vm_compute. reflexivity. Qed.
Lemma w_tables_ok : tables_ok TableWords.wordsValues TableWords.wordsIndex wV = true.
Proof. apply (tables_fast_ok _ _ _ 373). vm_compute. reflexivity. Qed.
Lemma s_tables_ok : tables_ok TableSentences.sentencesValues TableSentences.sentencesIndex sV = true.
Proof. apply (tables_fast_ok _ _ _ 358). vm_compute. reflexivity. Qed.
Lemma p_tables_ok : tables_ok TablePhrases.phrasesValues TablePhrases.phrasesIndex pV = true.
Proof. apply (tables_fast_ok _ _ _ 358). vm_compute. reflexivity. Qed.
