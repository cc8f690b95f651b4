(** C64: how large the buffer of a scanner becomes. *)
From Verif Require Import Base ListFacts Engine SpecIter SpecApi Drive ApiFacts ApiInst ConformApi Scanner SpecReader ScannerFacts ReaderFacts WordsReader SpecJoiners JoinersFacts PropReader Prompt PromptWords PromptSentences SpecLong LongFacts PropLong SpecBuffer BufferFacts.
From Verif Require Graphemes Words Sentences Phrases GraphemesEngine WordsEngine SentencesEngine PhrasesEngine.

Theorem C64_graphemes : reads_in_place 1 (iterating graphemes_api) Graphemes.splitFunc. Proof. exact (reads_in_place_ok _ _ GraphemesEngine.g_split_ok g_prompt _ g_agree). Qed.
Theorem C64_words : reads_in_place 2 (iterating words_api) Words.splitFunc. Proof. exact (reads_in_place_ok _ _ (WordsEngine.w_split_ok _) (w_prompt _) _ w_agree). Qed.
Theorem C64_sentences : reads_in_place 2 (iterating sentences_api) Sentences.splitFunc. Proof. exact (reads_in_place_ok _ _ SentencesEngine.s_split_ok s_prompt _ s_agree). Qed.
Theorem C64_phrases : reads_in_place 2 (iterating phrases_api) Phrases.splitFunc. Proof. exact (reads_in_place_ok _ _ PhrasesEngine.p_split_ok p_prompt _ p_agree). Qed.
Theorem C64_joiners : forall j, no_middle_space j -> reads_in_place 2 (fun fuel d => tokens words_api fuel (Words.setJoiners (Words.FromBytes d) j)) (Words.joinersSplitFunc j).
Proof. intros j Hj. exact (reads_in_place_ok _ _ (WordsEngine.w_split_ok j) (w_prompt j) _ (joiners_agree j Hj)). Qed.
(** And never larger than the limit, unless the client gave it a larger one: for every split function, and every reader, even one that breaks the contract of io.Reader. *)
Theorem C64_limit : forall rd f s r s' r', fresh_scanner f s -> scanning rd s r s' r' -> (size s' <= N.max (size s) (sc_max s))%N.
Proof. intros rd f s r s' r' HS. apply scanning_limit. destruct HS as [|buf max s HB]; [|injection HB as <-]; unfold bounds; cbn; lia. Qed.
Print Assumptions C64_graphemes.
Print Assumptions C64_words.
Print Assumptions C64_sentences.
Print Assumptions C64_phrases.
Print Assumptions C64_joiners.
Print Assumptions C64_limit.

(** [n] calls of Scan, for the examples. *)
Fixpoint scan_times (rd : reader) (fuel n : nat) (s : scanner) (r : rd_St rd) : res (scanner * rd_St rd) :=
  match n with O => Ok (s, r) | S n' => ' (b, s1, r1) <- Scan rd fuel s r ;; scan_times rd fuel n' s1 r1 end.
Lemma times_scanning : forall rd fuel n s r s' r', scan_times rd fuel n s r = Ok (s', r') -> scanning rd s r s' r'.
Proof.
  intros rd fuel. induction n as [|n IH]; intros s r s' r' H; cbn [scan_times] in H; [injection H as <- <-; constructor|].
  destruct (Scan rd fuel s r) as [[[b s1] r1]| |] eqn:E; try discriminate. cbn [bind] in H. exact (scanning_more _ _ _ _ _ _ _ _ _ E (IH _ _ _ _ H)).
Qed.
Lemma at_most_spans : forall k w l, forallb (fun x => N.leb (N.of_nat (length (concat x))) w) (spans k l) = true -> spans_at_most k w l.
Proof. intros k w l H before some after E Hk. rewrite forallb_forall in H. apply N.leb_le. apply H. exact (spans_all _ _ _ _ _ E Hk). Qed.
Lemma times_size : forall rd fuel n s r z, match scan_times rd fuel n s r with Ok (s', _) => size s' | _ => 0%N end = z -> z <> 0%N -> exists s' r', scanning rd s r s' r' /\ size s' = z.
Proof. intros rd fuel n s r z H Hz. destruct (scan_times rd fuel n s r) as [[s' r']| |] eqn:E; [|congruence|congruence]. exists s', r'. split; [exact (times_scanning _ _ _ _ _ _ _ E)|exact H]. Qed.
(** The forty bytes of C63 through a buffer that had three bytes at first: it had six in the end. *)
Example C64_case : exists s l s' r', Buffer (Scanner.FromReader Words.splitFunc) [0; 0; 0]%N 1000 = Ok s /\ delivers (chunk_reader EOF) reads63 cats EOF
  /\ iterating words_api 100 cats = Ok l /\ spans_at_most 2 4 l /\ scanning (chunk_reader EOF) s reads63 s' r' /\ size s' = 6%N /\ N.max (first_size s) (2 * (4 + 3)) = 14%N.
Proof.
  set (s := {| sc_split := Words.splitFunc; sc_max := 1000; sc_token := None; sc_buf := [0; 0; 0]%N; sc_start := 0; sc_end := 0; sc_err := None; sc_empties := 0; sc_called := false |}).
  destruct (times_size (chunk_reader EOF) 100 19 s reads63 6) as (s' & r' & HR & HZ); [vm_compute; reflexivity|discriminate|].
  exists s, (concat (repeat [[99; 97; 116]; [32]; [100; 111; 103]; [32]]%N 5)), s', r'. split; [reflexivity|]. split; [apply (chunk_delivers EOF reads63)|]. split; [vm_compute; reflexivity|]. split; [apply at_most_spans; vm_compute; reflexivity|].
  split; [exact HR|]. split; [exact HZ|reflexivity].
Qed.
(** One token is not the measure for words: "11111111." and four accents, the longest word has nine bytes, and the buffer grows to 32. *)
Theorem C64_one_word_refuted : exists s l s' r', Buffer (Scanner.FromReader Words.splitFunc) [0; 0; 0; 0]%N 1000 = Ok s /\ delivers (chunk_reader EOF) [far_word] far_word EOF
  /\ iterating words_api 100 far_word = Ok l /\ spans_at_most 1 9 l /\ scanning (chunk_reader EOF) s [far_word] s' r' /\ (N.max (first_size s) (2 * (9 + 3)) < size s')%N.
Proof.
  set (s := {| sc_split := Words.splitFunc; sc_max := 1000; sc_token := None; sc_buf := [0; 0; 0; 0]%N; sc_start := 0; sc_end := 0; sc_err := None; sc_empties := 0; sc_called := false |}).
  destruct (times_size (chunk_reader EOF) 100 3 s [far_word] 32) as (s' & r' & HR & HZ); [vm_compute; reflexivity|discriminate|].
  exists s, [repeat 49 8; 46 :: concat (repeat [0xCC; 0x80] 4); [32]]%N, s', r'. split; [reflexivity|]. split; [pose proof (chunk_delivers EOF [far_word]) as H; cbn [concat] in H; rewrite app_nil_r in H; exact H|].
  split; [vm_compute; reflexivity|]. split; [apply at_most_spans; vm_compute; reflexivity|].
  split; [exact HR|]. rewrite HZ. reflexivity.
Qed.
Print Assumptions C64_one_word_refuted.
