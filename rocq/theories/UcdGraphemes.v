(** Every scalar value looked up in the trie of /repo/graphemes/trie.go has exactly its Unicode properties. *)
From Verif Require Import Base Trie LookupFacts TableFacts SpecUtf8 SpecUcd SpecLookup UcdFacts.
From Verif Require TableGraphemes.
Local Open Scope N_scope.

Definition g_ts : list rtable := [mapt gcb_bit gcb_table; mapt incb_bit incb_table; mapt (flag TableGraphemes._ExtendedPictographic) extpict_table].
Lemma g_sweep : bsweep TableGraphemes.graphemesValues TableGraphemes.graphemesIndex g_ts = true.
Proof. vm_compute. reflexivity. Qed.

Lemma g_bits : forall cp, bits_of g_ts cp = graphemes_property cp.
Proof.
  intros cp. unfold bits_of, g_ts, graphemes_property. cbn [map fold_right].
  rewrite ?(range_mapt _ gcb_bit GCB_Other), ?(range_mapt _ incb_bit InCB_Other), ?(range_mapt _ w_bit WB_Other),
    ?(range_mapt _ p_bit WB_Other), ?(range_mapt _ s_bit SB_Other), ?(range_mapt _ (flag _) false) by reflexivity.
  rewrite N.lor_0_r. reflexivity.
Qed.

Lemma g_lookup_cp : forall cp rest, scalar cp ->
  TableGraphemes.graphemes_lookup (utf8 cp ++ rest) = Ok (graphemes_property cp, length (utf8 cp)).
Proof.
  intros cp rest H. rewrite <- g_bits. exact (sweep_lookup _ _ _ _ g_tables_ok g_sweep cp rest H).
Qed.
