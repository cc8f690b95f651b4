(** C52: the protocol of a Scanner. *)
From Verif Require Import Base Engine Scanner SpecReader ScannerFacts ReaderFacts SpecScanner ScannerProtocol WordsReader.
From Verif Require Graphemes Words Sentences Phrases GraphemesEngine WordsEngine SentencesEngine PhrasesEngine.

(** Any number of calls of Scan, for every reader. *)
Theorem C52_graphemes : keeps_promises Graphemes.splitFunc. Proof. exact (keeps_promises_ok _ GraphemesEngine.g_split_ok). Qed.
Theorem C52_words : forall j, keeps_promises (Words.joinersSplitFunc j). Proof. exact (fun j => keeps_promises_ok _ (WordsEngine.w_split_ok j)). Qed.
Theorem C52_sentences : keeps_promises Sentences.splitFunc. Proof. exact (keeps_promises_ok _ SentencesEngine.s_split_ok). Qed.
Theorem C52_phrases : keeps_promises Phrases.splitFunc. Proof. exact (keeps_promises_ok _ PhrasesEngine.p_split_ok). Qed.
Print Assumptions C52_graphemes.
Print Assumptions C52_words.
Print Assumptions C52_sentences.
Print Assumptions C52_phrases.

(** "a b", then an error of the reader; five calls of Scan. *)
Example C52_case : delivers (chunk_reader (RErr 7)) [[97]; [32; 98]]%N [97; 32; 98]%N (RErr 7)
  /\ scans (chunk_reader (RErr 7)) 10 5 FromReader [[97]; [32; 98]]%N
     = Ok [ {| sn_more := true; sn_token := [97]%N; sn_err := None |}; {| sn_more := true; sn_token := [32]%N; sn_err := None |};
            {| sn_more := true; sn_token := [98]%N; sn_err := Some (SRead (RErr 7)) |};
            {| sn_more := false; sn_token := []; sn_err := Some (SRead (RErr 7)) |}; {| sn_more := false; sn_token := []; sn_err := Some (SRead (RErr 7)) |} ].
Proof. split; [apply (chunk_delivers (RErr 7) [[97]; [32; 98]]%N)|vm_compute; reflexivity]. Qed.

(** After "token too long" Scan has returned false, and yet goes on: the next call cuts up what is in the buffer as if the data
    ended there, in the middle of a word. *)
Theorem C52_too_long_refuted : exists s (r : list bytes) d whole,
  Buffer FromReader [] 4 = Ok s /\ delivers (chunk_reader EOF) r d EOF
  /\ scans (chunk_reader EOF) 20 2 s r = Ok [ {| sn_more := false; sn_token := []; sn_err := Some ErrTooLong |};
                                             {| sn_more := true; sn_token := whole; sn_err := Some ErrTooLong |} ]
  /\ Words.splitFunc d true = Ok (e_done 6 d) /\ length whole = 4.
Proof.
  eexists _, [[97; 98; 99; 100; 101; 102]]%N, [97; 98; 99; 100; 101; 102]%N, [97; 98; 99; 100]%N.
  split; [reflexivity|]. split; [apply (chunk_delivers EOF [[97; 98; 99; 100; 101; 102]]%N)|]. repeat split; vm_compute; reflexivity.
Qed.
Print Assumptions C52_too_long_refuted.

(** ** Configuration: any calls of Buffer and Split before the first Scan (a fresh scanner is what C13 and C14 start from), none after it. *)
Theorem C52_before : forall f cs, exists s, configure (Scanner.FromReader f) cs = Ok s /\ fresh_scanner (last_split f cs) s.
Proof. intros f cs. exact (configured cs f _ (fresh_default f)). Qed.
Theorem C52_after : forall rd fuel s r b s' r', Scan rd fuel s r = Ok (b, s', r') ->
  (forall buf max, Buffer s' buf max = Panic) /\ (forall f, Split s' f = Panic) /\ (forall j, ScannerJoiners s' j = Panic).
Proof.
  intros rd fuel s r b s' r' H. apply scan_called in H. unfold ScannerJoiners, Buffer, Split. rewrite H. auto.
Qed.
Print Assumptions C52_before.
Print Assumptions C52_after.
Definition settings52 : list setting := [Set_buffer [] 10; Set_split Words.splitFunc; Set_split Sentences.splitFunc].
Example C52_case_settings : last_split Words.splitFunc settings52 = Sentences.splitFunc
  /\ (s <- configure FromReader settings52 ;; ' (b, s', r') <- Scan (chunk_reader EOF) 10 s [[97; 32]; [98]]%N ;; Ok (b, Bytes s')) = Ok (true, [97; 32; 98]%N)
  /\ (s <- configure FromReader settings52 ;; ' (b, s', r') <- Scan (chunk_reader EOF) 10 s [[97; 32]; [98]]%N ;; Buffer s' [] 20) = Panic.
Proof. split; [reflexivity|]. split; vm_compute; reflexivity. Qed.
