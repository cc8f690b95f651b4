(** C85: every token is the longest piece that is a token by itself, and appending text only takes boundaries away. *)
From Verif Require Import Base SpecUtf8 SpecIter SpecApi SpecRules SpecNest SpecGreedy SpecWords ApiInst PropConform PropPieces GreedyFacts.
From Verif Require Graphemes Words Sentences Phrases.

(** From the front, always the longest piece that, taken by itself, is one token; and there is no other way to cut like this. *)
Definition longest_match (A : api) (mk : bytes -> It A) : Prop := forall cps fuel, scalars cps -> length (encode cps) < fuel ->
  exists segs, tokens A fuel (mk (encode cps)) = Ok (map encode segs) /\ munch (alone A mk) cps segs /\ forall segs', munch (alone A mk) cps segs' -> segs' = segs.
Theorem C85_graphemes : longest_match graphemes_api Graphemes.FromBytes.
Proof. exact (greedy_tokens (fun fuel d => tokens graphemes_api fuel (Graphemes.FromBytes d)) _ C05_graphemes_are_uax29 g_grow g_total g_excl C48_graphemes). Qed.
Print Assumptions C85_graphemes.
Theorem C85_words : longest_match words_api Words.FromBytes.
Proof. exact (greedy_tokens (fun fuel d => tokens words_api fuel (Words.FromBytes d)) _ C06_words_are_uax29 (w_grow _ [] eq_refl) (w_total _ [] eq_refl) (w_excl _ []) C48_words_plain). Qed.
Print Assumptions C85_words.
Theorem C85_sentences : longest_match sentences_api Sentences.FromBytes.
Proof. exact (greedy_tokens (fun fuel d => tokens sentences_api fuel (Sentences.FromBytes d)) _ C07_sentences_are_uax29 s_grow s_total s_excl C48_sentences). Qed.
Print Assumptions C85_sentences.
Theorem C85_phrases : longest_match phrases_api Phrases.FromBytes.
Proof. exact (greedy_tokens (fun fuel d => tokens phrases_api fuel (Phrases.FromBytes d)) _ C08_phrases_are_tailored_words (w_grow _ [Phrasal] eq_refl) (w_total _ [Phrasal] eq_refl) (w_excl _ [Phrasal]) C48_phrases). Qed.
Print Assumptions C85_phrases.

(** Whatever is appended, no new boundary appears in the text that was there. *)
Definition no_new_boundary (A : api) (mk : bytes -> It A) : Prop := forall d e fuel, scalars d -> scalars e -> length (encode (d ++ e)) < fuel ->
  exists l l', tokens A fuel (mk (encode d)) = Ok l /\ tokens A fuel (mk (encode (d ++ e))) = Ok l' /\ forall n, n <= length (encode d) -> boundary l' n -> boundary l n.
Theorem C85_graphemes_append : no_new_boundary graphemes_api Graphemes.FromBytes.
Proof. exact (append_tokens (fun fuel d => tokens graphemes_api fuel (Graphemes.FromBytes d)) _ C05_graphemes_are_uax29 g_grow g_total g_excl). Qed.
Print Assumptions C85_graphemes_append.
Theorem C85_words_append : no_new_boundary words_api Words.FromBytes.
Proof. exact (append_tokens (fun fuel d => tokens words_api fuel (Words.FromBytes d)) _ C06_words_are_uax29 (w_grow _ [] eq_refl) (w_total _ [] eq_refl) (w_excl _ [])). Qed.
Print Assumptions C85_words_append.
Theorem C85_sentences_append : no_new_boundary sentences_api Sentences.FromBytes.
Proof. exact (append_tokens (fun fuel d => tokens sentences_api fuel (Sentences.FromBytes d)) _ C07_sentences_are_uax29 s_grow s_total s_excl). Qed.
Print Assumptions C85_sentences_append.
Theorem C85_phrases_append : no_new_boundary phrases_api Phrases.FromBytes.
Proof. exact (append_tokens (fun fuel d => tokens phrases_api fuel (Phrases.FromBytes d)) _ C08_phrases_are_tailored_words (w_grow _ [Phrasal] eq_refl) (w_total _ [Phrasal] eq_refl) (w_excl _ [Phrasal])). Qed.
Print Assumptions C85_phrases_append.

(** "3.5 m": the prefix "3." is not a word, the longer "3.5" is, and "3.5 " is not *)
Example C85_case : scalars [51; 46; 53; 32; 109]%N /\ tokens words_api 20 (Words.FromBytes (encode [51; 46; 53; 32; 109]%N)) = Ok [[51; 46; 53]; [32]; [109]]%N
  /\ alone words_api Words.FromBytes [51; 46; 53]%N /\ ~ alone words_api Words.FromBytes [51; 46]%N /\ ~ alone words_api Words.FromBytes [51; 46; 53; 32]%N.
Proof.
  split; [repeat (constructor; [unfold scalar; lia|]); constructor|]. split; [vm_compute; reflexivity|]. split; [vm_compute; reflexivity|]. split; unfold alone; vm_compute; discriminate.
Qed.
(** "a. 1" has a boundary before the 1, which appending "b" takes away *)
Example C85_append_case : tokens sentences_api 20 (Sentences.FromBytes (encode [97; 46; 32; 49]%N)) = Ok [[97; 46; 32]; [49]]%N
  /\ tokens sentences_api 20 (Sentences.FromBytes (encode ([97; 46; 32; 49] ++ [98])%N)) = Ok [[97; 46; 32; 49; 98]]%N.
Proof. split; vm_compute; reflexivity. Qed.

(** In ill-formed text a longer prefix can be a token by itself: the letter a and the first byte of a character of three. *)
Theorem C85_ill_formed_refuted : exists s r t l, tokens words_api 20 (Words.FromBytes (s ++ r)) = Ok (t :: l) /\ tokens words_api 20 (Words.FromBytes s) = Ok [s] /\ length t < length s.
Proof. exists [97; 0xE2]%N, [32; 98]%N, [97]%N, [[0xE2]; [32]; [98]]%N. split; [vm_compute; reflexivity|]. split; [vm_compute; reflexivity|]. cbn; lia. Qed.
Print Assumptions C85_ill_formed_refuted.
(** Putting text in front can make a boundary: the two regional indicators of a flag, and one more before them. *)
Theorem C85_prepend_refuted : exists d e, scalars d /\ scalars e /\ tokens graphemes_api 20 (Graphemes.FromBytes (encode e)) = Ok [encode e]
  /\ exists x y, e = x ++ y /\ x <> [] /\ y <> [] /\ tokens graphemes_api 20 (Graphemes.FromBytes (encode (d ++ e))) = Ok [encode (d ++ x); encode y].
Proof.
  exists [0x1F1E6]%N, [0x1F1EB; 0x1F1F7]%N. split; [repeat (constructor; [unfold scalar; lia|]); constructor|]. split; [repeat (constructor; [unfold scalar; lia|]); constructor|].
  split; [vm_compute; reflexivity|]. exists [0x1F1EB]%N, [0x1F1F7]%N. split; [reflexivity|]. split; [discriminate|]. split; [discriminate|]. vm_compute. reflexivity.
Qed.
Print Assumptions C85_prepend_refuted.
