(** C13, C14, C33, C37: reading from an io.Reader. *)
From Verif Require Import Base ListFacts Engine SpecIter SpecApi Drive ApiFacts ApiInst ConformApi Scanner SpecReader ScannerFacts ReaderFacts WordsReader.
From Verif Require Graphemes Words Sentences Phrases GraphemesIter GraphemesEngine WordsIter WordsEngine WordsConform SentencesEngine PhrasesEngine.

Lemma g_agree : forall d fuel l, length d < fuel -> chop Graphemes.splitFunc (S (length d)) d = Ok l -> iterating graphemes_api fuel d = Ok l.
Proof.
  intros d fuel l Hf Hc. eapply (tokens_chop _ _ _ _ _ _ _ _ _ graphemes_api_ok); [exact Hf|]. cbn [fst snd].
  rewrite (chop_ext _ _ GraphemesIter.g_isplit_off). exact Hc.
Qed.
Lemma w_agree : forall d fuel l, length d < fuel -> chop Words.splitFunc (S (length d)) d = Ok l -> iterating words_api fuel d = Ok l.
Proof.
  intros d fuel l Hf Hc. eapply (tokens_chop _ _ _ _ _ _ _ _ _ words_api_ok); [exact Hf|]. cbn [fst snd].
  rewrite (chop_eof _ _ (WordsIter.hot_path_agrees WordsConform.J0 eq_refl)). exact Hc.
Qed.
Lemma s_agree : forall d fuel l, length d < fuel -> chop Sentences.splitFunc (S (length d)) d = Ok l -> iterating sentences_api fuel d = Ok l.
Proof. intros d fuel l Hf Hc. eapply (tokens_chop _ _ _ _ _ _ _ _ _ sentences_api_ok); [exact Hf|]. exact Hc. Qed.
Lemma p_agree : forall d fuel l, length d < fuel -> chop Phrases.splitFunc (S (length d)) d = Ok l -> iterating phrases_api fuel d = Ok l.
Proof. intros d fuel l Hf Hc. eapply (tokens_chop _ _ _ _ _ _ _ _ _ phrases_api_ok); [exact Hf|]. exact Hc. Qed.

(** ** C13: the tokens of a reader are those of its data *)
Theorem C13_graphemes : reads_all (iterating graphemes_api) Graphemes.splitFunc. Proof. exact (reads_all_ok _ GraphemesEngine.g_split_ok _ g_agree). Qed.
Theorem C13_words : reads_all (iterating words_api) Words.splitFunc. Proof. exact (reads_all_ok _ (WordsEngine.w_split_ok _) _ w_agree). Qed.
Theorem C13_sentences : reads_all (iterating sentences_api) Sentences.splitFunc. Proof. exact (reads_all_ok _ SentencesEngine.s_split_ok _ s_agree). Qed.
Theorem C13_phrases : reads_all (iterating phrases_api) Phrases.splitFunc. Proof. exact (reads_all_ok _ PhrasesEngine.p_split_ok _ p_agree). Qed.
Theorem C13_graphemes_short : reads_all_short (iterating graphemes_api) Graphemes.splitFunc. Proof. exact (reads_all_short_ok _ GraphemesEngine.g_split_ok _ g_agree). Qed.
Theorem C13_words_short : reads_all_short (iterating words_api) Words.splitFunc. Proof. exact (reads_all_short_ok _ (WordsEngine.w_split_ok _) _ w_agree). Qed.
Theorem C13_sentences_short : reads_all_short (iterating sentences_api) Sentences.splitFunc. Proof. exact (reads_all_short_ok _ SentencesEngine.s_split_ok _ s_agree). Qed.
Theorem C13_phrases_short : reads_all_short (iterating phrases_api) Phrases.splitFunc. Proof. exact (reads_all_short_ok _ PhrasesEngine.p_split_ok _ p_agree). Qed.
Print Assumptions C13_graphemes.
Print Assumptions C13_words.
Print Assumptions C13_sentences.
Print Assumptions C13_phrases.
Print Assumptions C13_graphemes_short.
Print Assumptions C13_words_short.
Print Assumptions C13_sentences_short.
Print Assumptions C13_phrases_short.

(** "can't ab", e with acute in two reads, an empty read, a buffer of 3 bytes that may grow to 8; EOF with the last read. *)
Definition reads13 : list bytes := [[99; 97]; [110; 39]; []; [116; 32]; [97; 98]; [0xC3]; [0xA9]]%N.
Example C13_case : delivers (eager_reader EOF) reads13 (concat reads13) EOF
  /\ (exists s, Buffer (Scanner.FromReader Words.splitFunc) [0; 0; 0]%N 8 = Ok s /\ fresh_scanner Words.splitFunc s
      /\ scan_all (eager_reader EOF) 20 s reads13 = Ok ([[99; 97; 110; 39; 116]; [32]; [97; 98; 0xC3; 0xA9]]%N, None))
  /\ iterating words_api 20 (concat reads13) = Ok [[99; 97; 110; 39; 116]; [32]; [97; 98; 0xC3; 0xA9]]%N.
Proof.
  split; [apply eager_delivers|]. split; [|vm_compute; reflexivity]. eexists. split; [reflexivity|].
  split; [eapply fresh_buffer; reflexivity|vm_compute; reflexivity].
Qed.
Example C13_short_case : delivers (chunk_reader EOF) [[97]; [98; 32]]%N [97; 98; 32]%N EOF /\ lively (chunk_reader EOF) 100 [[97]; [98; 32]]%N
  /\ (3 < N.min (sc_max (Scanner.FromReader Words.splitFunc)) (2 ^ 62))%N.
Proof. split; [apply (chunk_delivers EOF [[97]; [98; 32]]%N)|]. split; [apply chunk_lively; repeat constructor; discriminate|vm_compute; reflexivity]. Qed.

(** ** C14: errors *)
Theorem C14_graphemes : reads_prefix (iterating graphemes_api) Graphemes.splitFunc. Proof. exact (reads_prefix_ok _ GraphemesEngine.g_split_ok _ g_agree). Qed.
Theorem C14_words : reads_prefix (iterating words_api) Words.splitFunc. Proof. exact (reads_prefix_ok _ (WordsEngine.w_split_ok _) _ w_agree). Qed.
Theorem C14_sentences : reads_prefix (iterating sentences_api) Sentences.splitFunc. Proof. exact (reads_prefix_ok _ SentencesEngine.s_split_ok _ s_agree). Qed.
Theorem C14_phrases : reads_prefix (iterating phrases_api) Phrases.splitFunc. Proof. exact (reads_prefix_ok _ PhrasesEngine.p_split_ok _ p_agree). Qed.
Print Assumptions C14_graphemes.
Print Assumptions C14_words.
Print Assumptions C14_sentences.
Print Assumptions C14_phrases.

(** An error of the reader in the middle of a word; a word too long for the buffer. *)
Example C14_case : delivers (chunk_reader (RErr 7)) [[97; 32]; [98]]%N [97; 32; 98]%N (RErr 7)
  /\ scan_all (chunk_reader (RErr 7)) 20 (Scanner.FromReader Sentences.splitFunc) [[97; 32]; [98]]%N = Ok ([[97; 32; 98]]%N, Some (SRead (RErr 7)))
  /\ (exists s, Buffer (Scanner.FromReader Words.splitFunc) [] 4 = Ok s
      /\ scan_all (chunk_reader EOF) 20 s [[97; 32; 98; 99; 100; 101; 102; 32; 103]]%N = Ok ([[97]; [32]]%N, Some ErrTooLong)).
Proof.
  split; [apply (chunk_delivers (RErr 7) [[97; 32]; [98]]%N)|]. split; [vm_compute; reflexivity|].
  eexists. split; [reflexivity|vm_compute; reflexivity].
Qed.

(** A reader that stalls (101 empty reads, no error) makes the scanner flush what it has, as if it were the end: what the
    client has seen then need not be a prefix of the tokens of the data. *)
Theorem C14_stalled_prefix_refuted : exists (r : list bytes) d l whole,
  delivers (chunk_reader EOF) r d EOF
  /\ scan_all (chunk_reader EOF) 200 (Scanner.FromReader Words.splitFunc) r = Ok (l, Some ErrNoProgress)
  /\ iterating words_api 200 d = Ok whole /\ ~ exists l2, whole = l ++ l2.
Proof.
  exists ([97]%N :: repeat [] 101 ++ [[98]%N]), [97; 98]%N, [[97]]%N, [[97; 98]]%N.
  split; [apply (chunk_delivers EOF ([97]%N :: repeat [] 101 ++ [[98]%N]))|]. split; [vm_compute; reflexivity|]. split; [vm_compute; reflexivity|].
  intros (l2 & H). discriminate.
Qed.
Print Assumptions C14_stalled_prefix_refuted.
