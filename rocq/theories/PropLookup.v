(** C10: the property lookups are right for every scalar value, whatever bytes follow. *)
From Verif Require Import Base SpecUtf8 SpecUcd SpecLookup UcdGraphemes UcdWords UcdSentences UcdPhrases LookupOnly.
From Verif Require TableGraphemes TableWords TableSentences TablePhrases.
Local Open Scope N_scope.

Theorem C10_graphemes_lookup : forall cp rest, scalar cp ->
  TableGraphemes.graphemes_lookup (utf8 cp ++ rest) = Ok (graphemes_property cp, length (utf8 cp)).
Proof. exact g_lookup_cp. Qed.
Theorem C10_words_lookup : forall cp rest, scalar cp ->
  TableWords.words_lookup (utf8 cp ++ rest) = Ok (words_property cp, length (utf8 cp)).
Proof. exact w_lookup_cp. Qed.
Theorem C10_sentences_lookup : forall cp rest, scalar cp ->
  TableSentences.sentences_lookup (utf8 cp ++ rest) = Ok (sentences_property cp, length (utf8 cp)).
Proof. exact s_lookup_cp. Qed.
Theorem C10_phrases_lookup : forall cp rest, scalar cp ->
  TablePhrases.phrases_lookup (utf8 cp ++ rest) = Ok (phrases_property cp, length (utf8 cp)).
Proof. exact p_lookup_cp. Qed.

(** Conversely, a property is only ever reported for a whole scalar value at the front: ill-formed or truncated bytes have none. *)
Theorem C10_graphemes_only : forall d v w, TableGraphemes.graphemes_lookup d = Ok (v, w) -> v <> 0 ->
  exists cp rest, scalar cp /\ d = utf8 cp ++ rest /\ v = graphemes_property cp /\ w = length (utf8 cp).
Proof.
  intros d v w H Hv. destruct (lookup_only _ _ g_only d v w H Hv) as (cp & rest & S & E & W). exists cp, rest. split; [exact S|]. split; [exact E|]. split; [|exact W].
  pose proof (g_lookup_cp cp rest S) as HL. rewrite <- E, H in HL. injection HL as -> _. reflexivity.
Qed.
Theorem C10_words_only : forall d v w, TableWords.words_lookup d = Ok (v, w) -> v <> 0 ->
  exists cp rest, scalar cp /\ d = utf8 cp ++ rest /\ v = words_property cp /\ w = length (utf8 cp).
Proof.
  intros d v w H Hv. destruct (lookup_only _ _ w_only d v w H Hv) as (cp & rest & S & E & W). exists cp, rest. split; [exact S|]. split; [exact E|]. split; [|exact W].
  pose proof (w_lookup_cp cp rest S) as HL. rewrite <- E, H in HL. injection HL as -> _. reflexivity.
Qed.
Theorem C10_sentences_only : forall d v w, TableSentences.sentences_lookup d = Ok (v, w) -> v <> 0 ->
  exists cp rest, scalar cp /\ d = utf8 cp ++ rest /\ v = sentences_property cp /\ w = length (utf8 cp).
Proof.
  intros d v w H Hv. destruct (lookup_only _ _ s_only d v w H Hv) as (cp & rest & S & E & W). exists cp, rest. split; [exact S|]. split; [exact E|]. split; [|exact W].
  pose proof (s_lookup_cp cp rest S) as HL. rewrite <- E, H in HL. injection HL as -> _. reflexivity.
Qed.
Theorem C10_phrases_only : forall d v w, TablePhrases.phrases_lookup d = Ok (v, w) -> v <> 0 ->
  exists cp rest, scalar cp /\ d = utf8 cp ++ rest /\ v = phrases_property cp /\ w = length (utf8 cp).
Proof.
  intros d v w H Hv. destruct (lookup_only _ _ p_only d v w H Hv) as (cp & rest & S & E & W). exists cp, rest. split; [exact S|]. split; [exact E|]. split; [|exact W].
  pose proof (p_lookup_cp cp rest S) as HL. rewrite <- E, H in HL. injection HL as -> _. reflexivity.
Qed.
(** The first two bytes of U+0915 and a surrogate have no property; the whole of U+0915 has. *)
Example C10_only_case : TableGraphemes.graphemes_lookup [0xE0; 0xA4] = Ok (0, 0%nat) /\ TableGraphemes.graphemes_lookup [0xED; 0xA0; 0x80] = Ok (0, 3%nat)
  /\ exists v, TableGraphemes.graphemes_lookup [0xE0; 0xA4; 0x95; 0xFF] = Ok (v, 3%nat) /\ v <> 0.
Proof. split; [vm_compute; reflexivity|]. split; [vm_compute; reflexivity|]. exists TableGraphemes._InCBConsonant. split; [vm_compute; reflexivity|discriminate]. Qed.

(** U+094D DEVANAGARI SIGN VIRAMA is Extend and an InCB linker; U+1F600 is pictographic; 'e' is a letter. *)
Example C10_virama : scalar 0x94D /\ GCB 0x94D = GCB_Extend /\ InCB 0x94D = InCB_Linker
  /\ TableGraphemes.graphemes_lookup (utf8 0x94D ++ [0xFF; 0x41]) = Ok (N.lor TableGraphemes._Extend TableGraphemes._InCBLinker, 3%nat).
Proof. split; [left; reflexivity|]. vm_compute. auto. Qed.
Example C10_emoji : scalar 0x1F600 /\ ExtPict 0x1F600 = true /\ WB 0x1F600 = WB_Other
  /\ TablePhrases.phrases_lookup (utf8 0x1F600) = Ok (TablePhrases._ExtendedPictographic, 4%nat).
Proof. split; [right; split; [discriminate|reflexivity]|]. vm_compute. auto. Qed.
Example C10_letter : WB 0x65 = WB_ALetter /\ SB 0x65 = SB_Lower /\ TableSentences.sentences_lookup (utf8 0x65) = Ok (TableSentences._Lower, 1%nat).
Proof. vm_compute. auto. Qed.

Print Assumptions C10_graphemes_lookup.
Print Assumptions C10_words_lookup.
Print Assumptions C10_sentences_lookup.
Print Assumptions C10_phrases_lookup.
Print Assumptions C10_graphemes_only.
Print Assumptions C10_words_only.
Print Assumptions C10_sentences_only.
Print Assumptions C10_phrases_only.
