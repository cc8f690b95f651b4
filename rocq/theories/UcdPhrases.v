(** Every scalar value looked up in the trie of /repo/phrases/trie.go has exactly its Unicode properties. *)
From Verif Require Import Base Trie LookupFacts TableFacts SpecUtf8 SpecUcd SpecLookup UcdFacts.
From Verif Require TablePhrases.
Local Open Scope N_scope.

Definition p_ts : list rtable := [mapt p_bit wb_table; mapt (flag TablePhrases._ExtendedPictographic) extpict_table].
Lemma p_sweep : bsweep TablePhrases.phrasesValues TablePhrases.phrasesIndex p_ts = true.
Proof. vm_compute. reflexivity. Qed.

Lemma p_bits : forall cp, bits_of p_ts cp = phrases_property cp.
Proof.
  intros cp. unfold bits_of, p_ts, phrases_property. cbn [map fold_right].
  rewrite ?(range_mapt _ gcb_bit GCB_Other), ?(range_mapt _ incb_bit InCB_Other), ?(range_mapt _ w_bit WB_Other),
    ?(range_mapt _ p_bit WB_Other), ?(range_mapt _ s_bit SB_Other), ?(range_mapt _ (flag _) false) by reflexivity.
  rewrite N.lor_0_r. reflexivity.
Qed.

Lemma p_lookup_cp : forall cp rest, scalar cp ->
  TablePhrases.phrases_lookup (utf8 cp ++ rest) = Ok (phrases_property cp, length (utf8 cp)).
Proof.
  intros cp rest H. rewrite <- p_bits. exact (sweep_lookup _ _ _ _ p_tables_ok p_sweep cp rest H).
Qed.
