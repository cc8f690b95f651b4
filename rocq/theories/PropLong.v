(** C63: data of any length is read through a buffer that has room for a few tokens. *)
From Verif Require Import Base ListFacts Engine SpecIter SpecApi Drive ApiFacts ApiInst ConformApi Scanner SpecReader ScannerFacts ReaderFacts WordsReader SpecJoiners JoinersFacts PropReader Prompt PromptWords PromptSentences SpecLong LongFacts.
From Verif Require Graphemes Words Sentences Phrases GraphemesEngine WordsEngine SentencesEngine PhrasesEngine.

(** One token for graphemes, two for the others. *)
Theorem C63_graphemes : reads_long 1 (iterating graphemes_api) Graphemes.splitFunc. Proof. exact (reads_long_ok _ _ GraphemesEngine.g_split_ok g_prompt _ g_agree). Qed.
Theorem C63_words : reads_long 2 (iterating words_api) Words.splitFunc. Proof. exact (reads_long_ok _ _ (WordsEngine.w_split_ok _) (w_prompt _) _ w_agree). Qed.
Theorem C63_sentences : reads_long 2 (iterating sentences_api) Sentences.splitFunc. Proof. exact (reads_long_ok _ _ SentencesEngine.s_split_ok s_prompt _ s_agree). Qed.
Theorem C63_phrases : reads_long 2 (iterating phrases_api) Phrases.splitFunc. Proof. exact (reads_long_ok _ _ PhrasesEngine.p_split_ok p_prompt _ p_agree). Qed.
(** Words with joiners, for the joiners with which iterator and scanner agree (C37). *)
Theorem C63_joiners : forall j, no_middle_space j -> reads_long 2 (fun fuel d => tokens words_api fuel (Words.setJoiners (Words.FromBytes d) j)) (Words.joinersSplitFunc j).
Proof. intros j Hj. exact (reads_long_ok _ _ (WordsEngine.w_split_ok j) (w_prompt j) _ (joiners_agree j Hj)). Qed.
Print Assumptions C63_graphemes.
Print Assumptions C63_words.
Print Assumptions C63_sentences.
Print Assumptions C63_phrases.
Print Assumptions C63_joiners.

(** Forty bytes of text through a buffer of at most twelve: "cat dog " five times, in reads of five bytes. *)
Definition cats : bytes := concat (repeat [99; 97; 116; 32; 100; 111; 103; 32]%N 5).
Definition reads63 : list bytes := [firstn 5 cats; firstn 5 (skipn 5 cats); skipn 10 cats].
Fixpoint spans (k : nat) (l : list bytes) : list (list bytes) := match l with [] => [[]] | _ :: l' => map (fun n => firstn n l) (seq 0 (S k)) ++ spans k l' end.
Lemma spans_all : forall k l before some after, l = before ++ some ++ after -> length some <= k -> In some (spans k l).
Proof.
  intros k l before. revert l. induction before as [|x before IH]; intros l some after -> Hk.
  - cbn [app]. destruct some as [|y some].
    { cbn [app]. destruct after; cbn [spans]; [left; reflexivity|]. apply in_or_app. left. apply in_map_iff. exists 0. split; [reflexivity|]. apply in_seq. lia. }
    cbn [app spans]. apply in_or_app. left. apply in_map_iff. exists (length (y :: some)). split; [|apply in_seq; lia].
    change (y :: some ++ after) with ((y :: some) ++ after). rewrite firstn_app, firstn_all, Nat.sub_diag. apply app_nil_r.
  - cbn [app spans]. apply in_or_app. right. apply (IH _ some after eq_refl Hk).
Qed.
Lemma fit_spans : forall k max l, forallb (fun w => N.ltb (N.of_nat (length (concat w)) + 3) (N.min max (2 ^ 62))) (spans k l) = true -> tokens_fit k max l.
Proof. intros k max l H before some after E Hk. rewrite forallb_forall in H. apply N.ltb_lt. apply H. exact (spans_all _ _ _ _ _ E Hk). Qed.
Example C63_case : delivers (chunk_reader EOF) reads63 cats EOF /\ lively (chunk_reader EOF) 100 reads63
  /\ exists s l, Buffer (Scanner.FromReader Words.splitFunc) [] 12 = Ok s /\ fresh_scanner Words.splitFunc s
      /\ iterating words_api 100 cats = Ok l /\ tokens_fit 2 (sc_max s) l /\ length l = 20 /\ length cats = 40
      /\ scan_all (chunk_reader EOF) 100 s reads63 = Ok (l, None).
Proof.
  split; [apply (chunk_delivers EOF reads63)|]. split; [apply chunk_lively; repeat constructor; discriminate|].
  eexists _, _. split; [reflexivity|]. split; [eapply fresh_buffer; reflexivity|]. split; [vm_compute; reflexivity|].
  split; [apply fit_spans; vm_compute; reflexivity|]. split; [reflexivity|]. split; vm_compute; reflexivity.
Qed.

(** For words, sentences and phrases room for one token is not enough: the end of a token is found by looking into the next one.
    Eight digits, a full stop with four accents, a space; six letters, a full stop, a space, eight digits and a capital. *)
Definition far_word : bytes := (repeat 49 8 ++ [46] ++ concat (repeat [0xCC; 0x80] 4) ++ [32])%N.
Definition far_sentence : bytes := (repeat 97 6 ++ [46; 32] ++ repeat 49 8 ++ [66])%N.
Definition too_long (k : nat) (iterate : nat -> bytes -> res (list bytes)) (f : splitfun) (d : bytes) (max : N) : Prop :=
  exists s l l1, Buffer (Scanner.FromReader f) [] max = Ok s /\ delivers (chunk_reader EOF) [d] d EOF /\ lively (chunk_reader EOF) 100 [d]
  /\ iterate 100 d = Ok l /\ tokens_fit k max l /\ scan_all (chunk_reader EOF) 100 s [d] = Ok (l1, Some ErrTooLong).
Ltac refute d := eexists _, _, _; split; [reflexivity|]; split; [pose proof (chunk_delivers EOF [d]) as H; cbn [concat] in H; rewrite app_nil_r in H; exact H|];
  split; [apply chunk_lively; apply Forall_cons; [discriminate|apply Forall_nil]|]; split; [vm_compute; reflexivity|]; split; [apply fit_spans; vm_compute; reflexivity|vm_compute; reflexivity].
Theorem C63_one_word_refuted : too_long 1 (iterating words_api) Words.splitFunc far_word 13. Proof. refute far_word. Qed.
Theorem C63_one_sentence_refuted : too_long 1 (iterating sentences_api) Sentences.splitFunc far_sentence 13. Proof. refute far_sentence. Qed.
Theorem C63_one_phrase_refuted : too_long 1 (iterating phrases_api) Phrases.splitFunc far_word 13. Proof. refute far_word. Qed.
Print Assumptions C63_one_word_refuted.
Print Assumptions C63_one_sentence_refuted.
Print Assumptions C63_one_phrase_refuted.
(** And the three bytes are needed: a letter with three accents, seven bytes, and then a character of four bytes, of which three are in a buffer of ten. *)
Theorem C63_three_bytes_refuted : exists (d : bytes) s l,
  Buffer (Scanner.FromReader Graphemes.splitFunc) [] 10 = Ok s /\ delivers (chunk_reader EOF) [d] d EOF /\ lively (chunk_reader EOF) 100 [d]
  /\ iterating graphemes_api 100 d = Ok l /\ Forall (fun t => length t + 3 <= 10) l /\ scan_all (chunk_reader EOF) 100 s [d] = Ok ([], Some ErrTooLong).
Proof.
  exists ([101] ++ concat (repeat [0xCC; 0x80] 3) ++ [0xF0; 0x9F; 0x98; 0x80])%N. eexists _, _. split; [reflexivity|].
  split; [match goal with |- delivers _ [?d] _ _ => pose proof (chunk_delivers EOF [d]) as H end; cbn [concat] in H; rewrite app_nil_r in H; exact H|].
  split; [apply chunk_lively; apply Forall_cons; [discriminate|apply Forall_nil]|]. split; [vm_compute; reflexivity|]. split; [repeat constructor; cbn; lia|vm_compute; reflexivity].
Qed.
Print Assumptions C63_three_bytes_refuted.
