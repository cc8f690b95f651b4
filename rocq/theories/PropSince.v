(** C76: the program's tables agree with a copy of the Unicode data that does not come from the program. *)
From Verif Require Import Base Trie LookupFacts TableFacts SpecUtf8 SpecUcd SpecLookup UcdFacts SpecUcd15 SpecSince SinceFacts.
From Verif Require TableGraphemes TableWords TableSentences TablePhrases PropLookup.
Local Open Scope N_scope.

Definition gcb_now : N -> gcb := or_changed GCB15 gcb_changes.
Definition wb_now : N -> wb := or_changed WB15 wb_changes.
Definition sb_now : N -> sb := or_changed SB15 sb_changes.
(** Pictographs that are not emoji have lost the property since. *)
Definition extpict_now (c : N) : bool := ExtPict15 c && Emoji15 c.
Definition ideographic_now (c : N) : bool := wb_beq (wb_now c) WB_Katakana || Han15 c || Hiragana15 c.

Lemma g_now : forall c, Encoded15 c = true -> GCB c = gcb_now c.
Proof. intros c E. pose proof (g_all c) as H. unfold g_check in H. rewrite E in H. apply internal_gcb_dec_bl. exact H. Qed.
Lemma w_now : forall c, Encoded15 c = true -> WB c = wb_now c.
Proof. intros c E. pose proof (w_all c) as H. unfold w_check in H. rewrite E in H. apply internal_wb_dec_bl. exact H. Qed.
Lemma s_now : forall c, Encoded15 c = true -> SB c = sb_now c.
Proof. intros c E. pose proof (s_all c) as H. unfold s_check in H. rewrite E in H. apply internal_sb_dec_bl. exact H. Qed.
Lemma x_now : forall c, Encoded15 c = true -> ExtPict c = extpict_now c.
Proof. intros c E. pose proof (x_all c) as H. unfold x_check in H. rewrite E in H. apply eqb_prop. exact H. Qed.
Lemma b_now : forall c, Encoded15 c = true -> BleveIdeographic c = ideographic_now c.
Proof. intros c E. pose proof (b_all c) as H. apply eqb_prop in H. rewrite H, (w_now c E). reflexivity. Qed.

(** What the lookups of the four packages say about a character that Unicode 15 has. *)
Theorem C76_words : forall c rest, scalar c -> Encoded15 c = true -> TableWords.words_lookup (utf8 c ++ rest)
  = Ok (N.lor (w_bit (wb_now c)) (N.lor (flag TableWords._ExtendedPictographic (extpict_now c)) (flag TableWords._BleveIdeographic (ideographic_now c))), length (utf8 c)).
Proof. intros c rest S E. rewrite <- (w_now c E), <- (x_now c E), <- (b_now c E). exact (PropLookup.C10_words_lookup c rest S). Qed.
Print Assumptions C76_words.
Theorem C76_phrases : forall c rest, scalar c -> Encoded15 c = true -> TablePhrases.phrases_lookup (utf8 c ++ rest)
  = Ok (N.lor (p_bit (wb_now c)) (flag TablePhrases._ExtendedPictographic (extpict_now c)), length (utf8 c)).
Proof. intros c rest S E. rewrite <- (w_now c E), <- (x_now c E). exact (PropLookup.C10_phrases_lookup c rest S). Qed.
Print Assumptions C76_phrases.
Theorem C76_sentences : forall c rest, scalar c -> Encoded15 c = true -> TableSentences.sentences_lookup (utf8 c ++ rest) = Ok (s_bit (sb_now c), length (utf8 c)).
Proof. intros c rest S E. rewrite <- (s_now c E). exact (PropLookup.C10_sentences_lookup c rest S). Qed.
Print Assumptions C76_sentences.
(** Unicode 15 has no Indic_Conjunct_Break.  Its value is Extend or Linker for the characters UAX #44 says, whatever version they are from. *)
Theorem C76_graphemes : forall c rest, scalar c -> Encoded15 c = true -> exists i, TableGraphemes.graphemes_lookup (utf8 c ++ rest)
    = Ok (N.lor (gcb_bit (gcb_now c)) (N.lor (incb_bit i) (flag TableGraphemes._ExtendedPictographic (extpict_now c))), length (utf8 c))
  /\ (i = InCB_Extend \/ i = InCB_Linker <-> (gcb_now c = GCB_Extend \/ gcb_now c = GCB_ZWJ) /\ c <> 0x200C).
Proof.
  intros c rest S E. exists (InCB c). rewrite <- (g_now c E), <- (x_now c E). split; [exact (PropLookup.C10_graphemes_lookup c rest S)|].
  pose proof (i_all c) as H. apply eqb_prop in H. revert H. generalize (InCB c), (GCB c). intros i g H.
  destruct (N.eqb_spec c 0x200C) as [Ec|Ec]; destruct i, g; cbn in H; try discriminate H; split; intros K; try (destruct K as ([K|K] & K2); congruence); try (destruct K; congruence); auto.
Qed.
Print Assumptions C76_graphemes.

(** Beside the theorems: how many characters they are about, how few have changed, and a few of them. *)
Definition size (t : list (N * N * bool)) : N := fold_right (fun (e : N * N * bool) n => snd (fst e) + 1 - fst (fst e) + n) 0 t.
Example C76_case : size encoded15_table = 286785 /\ length gcb_changes = 28%nat /\ length wb_changes = 17%nat /\ length sb_changes = 27%nat
  /\ Encoded15 0x41 = true /\ wb_now 0x41 = WB_ALetter /\ sb_now 0x41 = SB_Upper /\ Encoded15 0x1F600 = true /\ extpict_now 0x1F600 = true /\ extpict_now 0x2605 = false /\ ExtPict15 0x2605 = true
  /\ wb_now 0x600 = WB_Numeric /\ WB15 0x600 = WB_Format /\ ideographic_now 0x4E00 = true /\ gcb_now 0x93F = GCB_SpacingMark.
Proof. vm_compute. repeat split. Qed.
