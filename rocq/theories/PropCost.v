(** C49: how much work an iteration is.  The functions [t_...] of the Count files are those of the model with a count of steps: trie lookups, bytes read by the fast paths and by the scans for
    escape sequences, comparisons with joiners, and one for every call of Next. *)
From Verif Require Import Base SpecIter SpecApi ApiInst Cost CostApi.
From Verif Require Graphemes Words Sentences Phrases CountGraphemes CountWords CountSentences CountPhrases CostGraphemes CostWords CostSentences CostPhrases.

(** Going through the text [d] from [mk d] to the end with Next gives the tokens of the iterator and takes no more than [bound d] steps. *)
Definition takes_at_most (A : api) (next : It A -> T (bool * It A)) (mk : bytes -> It A) (bound : bytes -> nat) : Prop := forall d fuel, length d < fuel ->
  exists l, tokens A fuel (mk d) = Ok l /\ result (tcollect next (a_value A) fuel (mk d)) = Ok l /\ cost (tcollect next (a_value A) fuel (mk d)) <= bound d.
(** There is no constant for which the steps are at most that many per byte. *)
Definition takes_more_than_linear (A : api) (next : It A -> T (bool * It A)) (mk : bytes -> It A) : Prop := forall c, exists d, forall fuel, length d < fuel ->
  c * length d < cost (tcollect next (a_value A) fuel (mk d)).

(** The counting functions compute what the functions of the model compute. *)
Theorem C49_counts : (forall it, result (CountGraphemes.t_Next it) = Graphemes.Next it)
  /\ (forall j it, Words.it_split it = Words.joinersSplitFunc j -> result (CountWords.t_Next (CountWords.t_joinersSplitFunc j) it) = Words.Next it)
  /\ (forall it, result (CountSentences.t_Next it) = Sentences.Next it)
  /\ (forall it, result (CountPhrases.t_Next it) = Phrases.Next it).
Proof.
  split; [exact CostGraphemes.r_Next|]. split; [|split; [exact CostSentences.r_Next|exact CostPhrases.r_Next]].
  intros j it E. apply CostWords.r_Next. intros d e. rewrite E. apply CostWords.r_split.
Qed.
Print Assumptions C49_counts.

Theorem C49_graphemes : takes_at_most graphemes_api CountGraphemes.t_Next Graphemes.FromBytes (fun d => 5 * length d + 1).
Proof. exact g_bound. Qed.
Print Assumptions C49_graphemes.
(** words: the number of joiners is part of the constant *)
Theorem C49_words : forall middle leading, let j := Some {| Words.Middle := middle; Words.Leading := leading |} in
  takes_at_most words_api (CountWords.t_Next (CountWords.t_joinersSplitFunc j)) (fun d => Words.setJoiners (Words.FromBytes d) j) (fun d => (14 + length leading + length middle) * length d + 1).
Proof. intros middle leading j. exact (w_bound j). Qed.
Print Assumptions C49_words.
Theorem C49_phrases : takes_at_most phrases_api CountPhrases.t_Next Phrases.FromBytes (fun d => 12 * length d + 1).
Proof. exact p_bound. Qed.
Print Assumptions C49_phrases.
(** sentences, and graphemes with escape sequences: at most quadratic ... *)
Theorem C49_sentences : takes_at_most sentences_api CountSentences.t_Next Sentences.FromBytes (fun d => (2 * length d + 8) * length d + 1).
Proof. exact s_bound. Qed.
Print Assumptions C49_sentences.
Theorem C49_graphemes_ansi : forall a7 a8, takes_at_most graphemes_api CountGraphemes.t_Next (fun d => Graphemes.setAnsi (Graphemes.FromBytes d) a7 a8) (fun d => (3 * length d + 4) * length d + 1).
Proof. exact g_bound_ansi. Qed.
Print Assumptions C49_graphemes_ansi.
(** ... and not linear: a full stop followed by closing parentheses, ESC ] over and over. *)
Theorem C49_sentences_refuted : takes_more_than_linear sentences_api CountSentences.t_Next Sentences.FromBytes.
Proof. exact s_more. Qed.
Print Assumptions C49_sentences_refuted.
Theorem C49_graphemes_ansi_refuted : takes_more_than_linear graphemes_api CountGraphemes.t_Next (fun d => Graphemes.setAnsi (Graphemes.FromBytes d) true false).
Proof. exact g_more. Qed.
Print Assumptions C49_graphemes_ansi_refuted.

(** "a 3.5" by words: 4 calls of Next, the bytes read by the fast path, and the lookups *)
Example C49_case : tcollect (CountWords.t_Next (CountWords.t_joinersSplitFunc (Some {| Words.Middle := []; Words.Leading := [] |}))) Words.Value 10
    (Words.setJoiners (Words.FromBytes [97; 32; 51; 46; 53]%N) (Some {| Words.Middle := []; Words.Leading := [] |})) = (22, Ok [[97]; [32]; [51; 46; 53]]%N).
Proof. vm_compute. reflexivity. Qed.
(** the work on "." followed by 10, 20 and 40 closing parentheses *)
Example C49_growth : map (fun n => cost (tcollect CountSentences.t_Next Sentences.Value 50 (Sentences.FromBytes (CostSentences.stop_parens n)))) [10; 20; 40] = [69; 234; 864].
Proof. vm_compute. reflexivity. Qed.
