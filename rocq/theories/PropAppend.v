(** C50: when text is appended only the last tokens can change. *)
From Verif Require Import Base SpecIter SpecApi ApiFacts ApiInst Engine AppendApi.
From Verif Require GraphemesEngine Graphemes Words WordsIter WordsEngine Sentences SentencesEngine Phrases PhrasesEngine JoinersBounds AppendWords AppendPhrases AppendSentences.

(** [mk d] is the iterator over [d].  All tokens of [d] except the last [k] are also the first tokens of [d ++ e], whatever [e] is; [d] and [e] are any bytes. *)
Definition append_keeps (k : nat) (A : api) (mk : bytes -> It A) : Prop := forall d e l1 l2 fuel, length (d ++ e) < fuel ->
  tokens A fuel (mk d) = Ok (l1 ++ l2) -> k <= length l2 -> exists l', tokens A fuel (mk (d ++ e)) = Ok (l1 ++ l').

Theorem C50_graphemes : append_keeps 1 graphemes_api Graphemes.FromBytes.
Proof. intros d e l1 l2 fuel. refine (kept graphemes_api_ok (false, false) 1 (so_eof _ GraphemesEngine.g_split_ok) AppendPhrases.g_cut_kept Graphemes.FromBytes _ d e fuel l1 l2). intros x. repeat split. Qed.
Print Assumptions C50_graphemes.
(** words: with any joiners, the same before and after *)
Theorem C50_words : forall j, append_keeps 2 words_api (fun d => Words.setJoiners (Words.FromBytes d) j).
Proof.
  intros j d e l1 l2 fuel. refine (kept words_api_ok j 2 (JoinersBounds.isplit_cuts _ (so_eof _ (WordsEngine.w_split_ok j))) (AppendWords.w_cut_kept j) (fun d => Words.setJoiners (Words.FromBytes d) j) _ d e fuel l1 l2).
  intros x. repeat split.
Qed.
Print Assumptions C50_words.
Theorem C50_words_plain : append_keeps 2 words_api Words.FromBytes.
Proof. exact (C50_words (Some {| Words.Middle := []; Words.Leading := [] |})). Qed.
Print Assumptions C50_words_plain.
Theorem C50_sentences : append_keeps 2 sentences_api Sentences.FromBytes.
Proof. intros d e l1 l2 fuel. refine (kept sentences_api_ok tt 2 (so_eof _ SentencesEngine.s_split_ok) AppendSentences.s_cut_kept Sentences.FromBytes _ d e fuel l1 l2). intros x. repeat split. Qed.
Print Assumptions C50_sentences.
Theorem C50_phrases : append_keeps 2 phrases_api Phrases.FromBytes.
Proof. intros d e l1 l2 fuel. refine (kept phrases_api_ok tt 2 (so_eof _ PhrasesEngine.p_split_ok) AppendPhrases.p_cut_kept Phrases.FromBytes _ d e fuel l1 l2). intros x. repeat split. Qed.
Print Assumptions C50_phrases.

(** "It is 3." and then "5 m": the last two tokens of the first text are replaced *)
Example C50_case : tokens words_api 20 (Words.FromBytes [73; 116; 32; 51; 46]%N) = Ok ([[73; 116]; [32]] ++ [[51]; [46]])%N
  /\ tokens words_api 20 (Words.FromBytes ([73; 116; 32; 51; 46] ++ [53; 32; 109])%N) = Ok ([[73; 116]; [32]] ++ [[51; 46; 53]; [32]; [109]])%N.
Proof. split; vm_compute; reflexivity. Qed.

(** The number of tokens cannot be lowered: the last token of a grapheme iteration can change, the last two of the others. *)
Theorem C50_graphemes_last_refuted : ~ append_keeps 0 graphemes_api Graphemes.FromBytes.
Proof. intros H. destruct (H [13]%N [10]%N [[13]]%N [] 5 ltac:(cbn; lia) ltac:(vm_compute; reflexivity) ltac:(lia)) as (l' & E). vm_compute in E. discriminate. Qed.
Print Assumptions C50_graphemes_last_refuted.
Theorem C50_words_last_refuted : ~ append_keeps 1 words_api Words.FromBytes.
Proof. intros H. destruct (H [51; 46]%N [53]%N [[51]]%N [[46]]%N 5 ltac:(cbn; lia) ltac:(vm_compute; reflexivity) ltac:(cbn; lia)) as (l' & E). vm_compute in E. discriminate. Qed.
Print Assumptions C50_words_last_refuted.
Theorem C50_sentences_last_refuted : ~ append_keeps 1 sentences_api Sentences.FromBytes.
Proof. intros H. destruct (H [97; 46; 32; 49]%N [97]%N [[97; 46; 32]]%N [[49]]%N 9 ltac:(cbn; lia) ltac:(vm_compute; reflexivity) ltac:(cbn; lia)) as (l' & E). vm_compute in E. discriminate. Qed.
Print Assumptions C50_sentences_last_refuted.
Theorem C50_phrases_last_refuted : ~ append_keeps 1 phrases_api Phrases.FromBytes.
Proof. intros H. destruct (H [51; 46]%N [53]%N [[51]]%N [[46]]%N 5 ltac:(cbn; lia) ltac:(vm_compute; reflexivity) ltac:(cbn; lia)) as (l' & E). vm_compute in E. discriminate. Qed.
Print Assumptions C50_phrases_last_refuted.
(** With the ANSI option no number is enough: a terminator makes one token of everything after an ESC ], however long. *)
Theorem C50_graphemes_ansi_refuted : forall k, ~ append_keeps k graphemes_api (fun d => Graphemes.setAnsi (Graphemes.FromBytes d) true false).
Proof.
  intros k H. destruct (ansi_append k) as (d & e & fuel & l1 & l2 & Hf & HT & Hk & HW & -> & HL). destruct (H d e _ l2 fuel Hf HT Hk) as (l' & E). rewrite HW in E. injection E as E _.
  apply (f_equal (@length N)) in E. rewrite app_length in E. cbn [length] in E. lia.
Qed.
Print Assumptions C50_graphemes_ansi_refuted.
