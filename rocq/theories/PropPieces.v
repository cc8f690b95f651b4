(** C48: consecutive tokens, taken out of their text, are the tokens of what they spell. *)
From Verif Require Import Base SpecUtf8 SpecIter SpecApi ApiFacts ApiInst Engine PiecesApi.
From Verif Require GraphemesEngine Graphemes Words WordsIter WordsEngine Sentences SentencesEngine Phrases PhrasesEngine JoinersBounds PiecesWords PiecesSentences PiecesPhrases.

(** [mk d] is the iterator over [d].  Of the tokens of any text take those from one place to another, [l2]: iterating over the bytes they spell gives [l2] again.
    The text itself is any bytes.  The bytes spelled by [l2] must be valid UTF-8, unless [l2] reaches to the end of the text; then nothing is asked. *)
Definition runs_stay (A : api) (mk : bytes -> It A) : Prop := forall d l1 l2 l3 fuel, length d < fuel ->
  tokens A fuel (mk d) = Ok (l1 ++ l2 ++ l3) -> (l3 = [] \/ well_formed (concat l2)) -> tokens A fuel (mk (concat l2)) = Ok l2.

Theorem C48_graphemes : runs_stay graphemes_api Graphemes.FromBytes.
Proof. refine (runs graphemes_api_ok (false, false) (so_eof _ GraphemesEngine.g_split_ok) g_cuts_off g_whole Graphemes.FromBytes _). intros d. repeat split. Qed.
Print Assumptions C48_graphemes.
(** words: with any joiners, the same for the text and for its part *)
Theorem C48_words : forall j, runs_stay words_api (fun d => Words.setJoiners (Words.FromBytes d) j).
Proof. intros j. refine (runs words_api_ok j (JoinersBounds.isplit_cuts _ (so_eof _ (WordsEngine.w_split_ok j))) (PiecesWords.w_ipieces j) (w_whole j) _ _). intros d. repeat split. Qed.
Print Assumptions C48_words.
Theorem C48_words_plain : runs_stay words_api Words.FromBytes.
Proof. exact (C48_words (Some {| Words.Middle := []; Words.Leading := [] |})). Qed.
Print Assumptions C48_words_plain.
Theorem C48_sentences : runs_stay sentences_api Sentences.FromBytes.
Proof. refine (runs sentences_api_ok tt (so_eof _ SentencesEngine.s_split_ok) PiecesSentences.s_pieces s_whole Sentences.FromBytes _). intros d. repeat split. Qed.
Print Assumptions C48_sentences.
Theorem C48_phrases : runs_stay phrases_api Phrases.FromBytes.
Proof. refine (runs phrases_api_ok tt (so_eof _ PhrasesEngine.p_split_ok) PiecesPhrases.p_pieces p_whole Phrases.FromBytes _). intros d. repeat split. Qed.
Print Assumptions C48_phrases.

(** "a 3.5 b" followed by two bytes that are not UTF-8: the tokens 3.5 and space, between the first space and b *)
Example C48_case : tokens words_api 20 (Words.FromBytes [97; 32; 51; 46; 53; 32; 98; 32; 0xE2; 0xFF]%N) = Ok ([[97]; [32]] ++ [[51; 46; 53]; [32]] ++ [[98]; [32; 0xE2; 0xFF]])%N
  /\ well_formed (concat [[51; 46; 53]; [32]])%N
  /\ tokens words_api 20 (Words.FromBytes [51; 46; 53; 32]%N) = Ok [[51; 46; 53]; [32]]%N.
Proof. split; [vm_compute; reflexivity|]. split; [|vm_compute; reflexivity]. exists [51; 46; 53; 32]%N. split; [|reflexivity]. repeat (constructor; [left; lia|]). constructor. Qed.

(** Without the condition it fails: in "a E2 b" the byte E2 is a token of its own, but a text that ends in "a E2" ends in a character cut short, which stays with the a. *)
Theorem C48_words_refuted : exists d l1 l2, tokens words_api 20 (Words.FromBytes d) = Ok (l1 ++ l2) /\ tokens words_api 20 (Words.FromBytes (concat l1)) <> Ok l1.
Proof. exists [97; 0xE2; 32; 98]%N, [[97]; [0xE2]]%N, [[32]; [98]]%N. split; [vm_compute; reflexivity|]. vm_compute. discriminate. Qed.
Print Assumptions C48_words_refuted.
Theorem C48_graphemes_refuted : exists d l1 l2, tokens graphemes_api 20 (Graphemes.FromBytes d) = Ok (l1 ++ l2) /\ tokens graphemes_api 20 (Graphemes.FromBytes (concat l1)) <> Ok l1.
Proof. exists [97; 0xE2; 32; 98]%N, [[97]; [0xE2]]%N, [[32]; [98]]%N. split; [vm_compute; reflexivity|]. vm_compute. discriminate. Qed.
Print Assumptions C48_graphemes_refuted.
