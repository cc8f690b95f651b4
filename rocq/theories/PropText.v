(** Properties C28, C30, C31, C32, C43: tokens of texts. *)
From Verif Require Import Base SpecUtf8 SpecIter SpecApi SpecRules SpecNest SpecText SpecWords NestFacts TextFacts ApiInst.
From Verif Require Graphemes Words Sentences Phrases GraphemesConform WordsConform SentencesConform PhrasesConform.

(** ** C28 *)
Theorem C28_graphemes_well_formed : tokens_well_formed graphemes_api. Proof. exact (segments_wf _ _ g_segments). Qed.
Theorem C28_words_well_formed : tokens_well_formed words_api. Proof. exact (segments_wf _ _ w_segments). Qed.
Theorem C28_sentences_well_formed : tokens_well_formed sentences_api. Proof. exact (segments_wf _ _ s_segments). Qed.
Theorem C28_phrases_well_formed : tokens_well_formed phrases_api. Proof. exact (segments_wf _ _ p_segments). Qed.
Print Assumptions C28_graphemes_well_formed.
Print Assumptions C28_words_well_formed.
Print Assumptions C28_sentences_well_formed.
Print Assumptions C28_phrases_well_formed.
Example C28_case : well_formed (encode [0xE9; 0x1F600; 0x301; 97]%N)
  /\ tokens graphemes_api 20 (Graphemes.FromBytes (encode [0xE9; 0x1F600; 0x301; 97]%N)) = Ok [[0xC3; 0xA9]; [0xF0; 0x9F; 0x98; 0x80; 0xCC; 0x81]; [97]]%N.
Proof. split; [exists [0xE9; 0x1F600; 0x301; 97]%N; split; [repeat (constructor; [unfold scalar; lia|]); constructor|reflexivity]|vm_compute; reflexivity]. Qed.

(** ** C30 *)
Theorem C30_phrases_are_made_of_words : forall cps fuel, scalars cps -> length (encode cps) < fuel ->
  exists phrases words, tokens phrases_api fuel (Phrases.FromBytes (encode cps)) = Ok phrases
    /\ tokens words_api fuel (Words.FromBytes (encode cps)) = Ok words
    /\ made_of phrases words.
Proof.
  intros cps fuel Hs Hf. destruct (p_segments cps fuel Hs Hf) as (sp & Hp & Sp). destruct (w_segments cps fuel Hs Hf) as (sw & Hw & Sw).
  exists (map encode sp), (map encode sw). split; [exact Hp|]. split; [exact Hw|]. exact (nested _ _ _ _ _ Sw Sp phrase_word).
Qed.
Print Assumptions C30_phrases_are_made_of_words.
(** "hi you, 3" *)
Example C30_case :
  tokens phrases_api 20 (Phrases.FromBytes [104; 105; 32; 121; 111; 117; 44; 32; 51]%N) = Ok [[104; 105; 32; 121; 111; 117]; [44]; [32; 51]]%N
  /\ tokens words_api 20 (Words.FromBytes [104; 105; 32; 121; 111; 117; 44; 32; 51]%N) = Ok [[104; 105]; [32]; [121; 111; 117]; [44]; [32]; [51]]%N.
Proof. split; vm_compute; reflexivity. Qed.

(** ** C31: the other two steps of the advertised order do not nest. *)
(** "A. B": a sentence starts inside the phrase " B". *)
Theorem C31_sentences_phrases_refuted : exists cps n sentences phrases, scalars cps
  /\ tokens sentences_api 20 (Sentences.FromBytes (encode cps)) = Ok sentences
  /\ tokens phrases_api 20 (Phrases.FromBytes (encode cps)) = Ok phrases
  /\ boundary sentences n /\ ~ boundary phrases n.
Proof.
  exists [65; 46; 32; 66]%N, 3, [[65; 46; 32]; [66]]%N, [[65]; [46]; [32; 66]]%N.
  split; [repeat (constructor; [unfold scalar; lia|]); constructor|]. split; [vm_compute; reflexivity|]. split; [vm_compute; reflexivity|].
  split; [exists [[65; 46; 32]]%N, [[66]]%N; split; reflexivity|]. intros H. apply boundary_offsets in H. cbn in H. intuition discriminate.
Qed.
Print Assumptions C31_sentences_phrases_refuted.
(** ARABIC NUMBER SIGN and a bracket: two words, one grapheme cluster. *)
Theorem C31_words_graphemes_refuted : exists cps n words graphemes, scalars cps
  /\ tokens words_api 20 (Words.FromBytes (encode cps)) = Ok words
  /\ tokens graphemes_api 20 (Graphemes.FromBytes (encode cps)) = Ok graphemes
  /\ boundary words n /\ ~ boundary graphemes n.
Proof.
  exists [0x600; 40]%N, 2, [[0xD8; 0x80]; [40]]%N, [[0xD8; 0x80; 40]]%N.
  split; [repeat (constructor; [unfold scalar; lia|]); constructor|]. split; [vm_compute; reflexivity|]. split; [vm_compute; reflexivity|].
  split; [exists [[0xD8; 0x80]]%N, [[40]]%N; split; reflexivity|]. intros H. apply boundary_offsets in H. cbn in H. intuition discriminate.
Qed.
Print Assumptions C31_words_graphemes_refuted.

(** ** C32 *)
Theorem C32_graphemes_line_by_line : line_by_line graphemes_api. Proof. exact g_lines_api. Qed.
Theorem C32_words_line_by_line : line_by_line words_api. Proof. exact w_lines_api. Qed.
Theorem C32_sentences_line_by_line : line_by_line sentences_api. Proof. exact s_lines_api. Qed.
Theorem C32_phrases_line_by_line : line_by_line phrases_api. Proof. exact p_lines_api. Qed.
Print Assumptions C32_graphemes_line_by_line.
Print Assumptions C32_words_line_by_line.
Print Assumptions C32_sentences_line_by_line.
Print Assumptions C32_phrases_line_by_line.
(** "a." LF and "b" followed by a stray byte *)
Example C32_case : well_formed ([97; 46] ++ [10])%N /\ whole_start [98; 0xC3]%N
  /\ tokens sentences_api 20 (Sentences.FromBytes [97; 46; 10; 98; 0xC3]%N) = Ok [[97; 46; 10]; [98; 0xC3]]%N.
Proof. split; [exists [97; 46; 10]%N; split; [repeat (constructor; [unfold scalar; lia|]); constructor|reflexivity]|]. split; [cbn; lia|vm_compute; reflexivity]. Qed.
(** Without the condition on what follows the line feed the claim is false: bytes cut off at the end of the data are
    added to the token before them, whatever it is. *)
Theorem C32_truncated_refuted : exists a b, well_formed (a ++ [10%N]) /\ ~ whole_start b
  /\ tokens graphemes_api 20 (Graphemes.FromBytes (a ++ [10%N])) = Ok [[10%N]]
  /\ tokens graphemes_api 20 (Graphemes.FromBytes b) = Ok [b]
  /\ tokens graphemes_api 20 (Graphemes.FromBytes ((a ++ [10%N]) ++ b)) = Ok [(a ++ [10%N]) ++ b].
Proof.
  exists [], [0xE4]%N. split; [exists [10]%N; split; [repeat (constructor; [unfold scalar; lia|]); constructor|reflexivity]|].
  split; [cbn; lia|]. repeat split; vm_compute; reflexivity.
Qed.
Print Assumptions C32_truncated_refuted.

(** ** C43 *)
Theorem C43_graphemes_crlf : crlf_kept graphemes_api. Proof. exact (api_crlf _ _ g_segments g_crlf GraphemesConform.g_disjoint). Qed.
Theorem C43_words_crlf : crlf_kept words_api. Proof. exact (api_crlf _ _ w_segments (w_crlf _ _) WordsConform.w_disjoint). Qed.
Theorem C43_sentences_crlf : crlf_kept sentences_api. Proof. exact (api_crlf _ _ s_segments s_crlf SentencesConform.s_disjoint). Qed.
Theorem C43_phrases_crlf : crlf_kept phrases_api. Proof. exact (api_crlf _ _ p_segments (w_crlf _ _) PhrasesConform.p_disjoint). Qed.
Theorem C43_graphemes_after_lf : lf_breaks_after graphemes_api. Proof. exact (api_after _ _ g_segments g_after). Qed.
Theorem C43_words_after_lf : lf_breaks_after words_api. Proof. exact (api_after _ _ w_segments (w_after _ _)). Qed.
Theorem C43_sentences_after_lf : lf_breaks_after sentences_api. Proof. exact (api_after _ _ s_segments s_after). Qed.
Theorem C43_phrases_after_lf : lf_breaks_after phrases_api. Proof. exact (api_after _ _ p_segments (w_after _ _)). Qed.
Theorem C43_graphemes_before_lf : lf_breaks_before graphemes_api. Proof. exact (api_before _ _ g_segments g_before). Qed.
Theorem C43_words_before_lf : lf_breaks_before words_api. Proof. exact (api_before _ _ w_segments (w_before _ _)). Qed.
Theorem C43_phrases_before_lf : lf_breaks_before phrases_api. Proof. exact (api_before _ _ p_segments (w_before _ _)). Qed.
Print Assumptions C43_graphemes_crlf.
Print Assumptions C43_words_crlf.
Print Assumptions C43_sentences_crlf.
Print Assumptions C43_phrases_crlf.
Print Assumptions C43_graphemes_after_lf.
Print Assumptions C43_words_after_lf.
Print Assumptions C43_sentences_after_lf.
Print Assumptions C43_phrases_after_lf.
Print Assumptions C43_graphemes_before_lf.
Print Assumptions C43_words_before_lf.
Print Assumptions C43_phrases_before_lf.
(** COMBINING ACUTE, CR LF, COMBINING ACUTE, LF *)
Example C43_case : scalars [0x301; 13; 10; 0x301; 10]%N /\
  tokens words_api 20 (Words.FromBytes (encode [0x301; 13; 10; 0x301; 10]%N)) = Ok [[0xCC; 0x81]; [13; 10]; [0xCC; 0x81]; [10]]%N
  /\ tokens sentences_api 20 (Sentences.FromBytes (encode [0x301; 13; 10; 0x301; 10]%N)) = Ok [[0xCC; 0x81; 13; 10]; [0xCC; 0x81; 10]]%N.
Proof. split; [repeat (constructor; [unfold scalar; lia|]); constructor|split; vm_compute; reflexivity]. Qed.
