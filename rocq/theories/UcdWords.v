(** Every scalar value looked up in the trie of /repo/words/trie.go has exactly its Unicode properties. *)
From Verif Require Import Base Trie LookupFacts TableFacts SpecUtf8 SpecUcd SpecLookup UcdFacts.
From Verif Require TableWords.
Local Open Scope N_scope.

Definition w_ts : list rtable := [mapt w_bit wb_table; mapt (flag TableWords._ExtendedPictographic) extpict_table; mapt (flag TableWords._BleveIdeographic) ideographic_table].
Lemma w_sweep : bsweep TableWords.wordsValues TableWords.wordsIndex w_ts = true.
Proof. vm_compute. reflexivity. Qed.

Lemma w_bits : forall cp, bits_of w_ts cp = words_property cp.
Proof.
  intros cp. unfold bits_of, w_ts, words_property. cbn [map fold_right].
  rewrite ?(range_mapt _ gcb_bit GCB_Other), ?(range_mapt _ incb_bit InCB_Other), ?(range_mapt _ w_bit WB_Other),
    ?(range_mapt _ p_bit WB_Other), ?(range_mapt _ s_bit SB_Other), ?(range_mapt _ (flag _) false) by reflexivity.
  rewrite N.lor_0_r. reflexivity.
Qed.

Lemma w_lookup_cp : forall cp rest, scalar cp ->
  TableWords.words_lookup (utf8 cp ++ rest) = Ok (words_property cp, length (utf8 cp)).
Proof.
  intros cp rest H. rewrite <- w_bits. exact (sweep_lookup _ _ _ _ w_tables_ok w_sweep cp rest H).
Qed.
