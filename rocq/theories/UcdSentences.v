(** Every scalar value looked up in the trie of /repo/sentences/trie.go has exactly its Unicode properties. *)
From Verif Require Import Base Trie LookupFacts TableFacts SpecUtf8 SpecUcd SpecLookup UcdFacts.
From Verif Require TableSentences.
Local Open Scope N_scope.

Definition s_ts : list rtable := [mapt s_bit sb_table].
Lemma s_sweep : bsweep TableSentences.sentencesValues TableSentences.sentencesIndex s_ts = true.
Proof. vm_compute. reflexivity. Qed.

Lemma s_bits : forall cp, bits_of s_ts cp = sentences_property cp.
Proof.
  intros cp. unfold bits_of, s_ts, sentences_property. cbn [map fold_right].
  rewrite ?(range_mapt _ gcb_bit GCB_Other), ?(range_mapt _ incb_bit InCB_Other), ?(range_mapt _ w_bit WB_Other),
    ?(range_mapt _ p_bit WB_Other), ?(range_mapt _ s_bit SB_Other), ?(range_mapt _ (flag _) false) by reflexivity.
  rewrite N.lor_0_r. reflexivity.
Qed.

Lemma s_lookup_cp : forall cp rest, scalar cp ->
  TableSentences.sentences_lookup (utf8 cp ++ rest) = Ok (sentences_property cp, length (utf8 cp)).
Proof.
  intros cp rest H. rewrite <- s_bits. exact (sweep_lookup _ _ _ _ s_tables_ok s_sweep cp rest H).
Qed.
