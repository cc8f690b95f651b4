(** C53 to C56.  The program text means the model: the committed Go files, read and run, give a client of the packages what the model says. *)
From Coq Require Import String.
From Verif Require Import SpecIter SpecApi ApiInst.
From Verif Require Import Base GoSyntax GoSem SpecCode SpecCode2 SpecIterators.
From Verif Require ProgGraphemes Graphemes CodeGraphemes ProgSentences Sentences CodeSentences ProgPhrases Phrases CodePhrases ProgWords Words CodeWords CodeWordsAny ProgOther CodeOther Iterators Filter.
Local Open Scope string_scope.
Local Open Scope list_scope.

(** graphemes/splitfunc.go, iterator.go, ansi.go, ansi8.go, and the lookup functions of trie.go *)
Theorem C53_graphemes : exists p, ProgGraphemes.graphemes_code = Some p
  /\ program_is_model graphemes_api p 5 CodeGraphemes.graphemes_config /\ program_is_split Graphemes.splitFunc p "splitFunc" 3.
Proof. exact (ex_intro _ _ (conj ProgGraphemes.graphemes_link (conj CodeGraphemes.graphemes_is_model CodeGraphemes.graphemes_is_split))). Qed.
Print Assumptions C53_graphemes.

(** A client of graphemes: "e" with an accent, then an escape sequence, with the setting changed on the way. *)
Definition uses53 : list (use (bool * bool)) := [UNext; UValue; UFirst; UConfig (true, false); UNext; UValue; UStart; UEnd; UNext; USetText (Str, [13; 10; 97]%N); UNext; UValue].
Example C53_case_graphemes : Forall (use_proper true 7) uses53 /\ proper true 7 (Str, [101; 204; 129; 27; 91; 49; 109]%N)
  /\ go_client graphemes_api ProgGraphemes.pg 16 5 (CodeGraphemes.graphemes_config ProgGraphemes.pg 16 5) (Str, [101; 204; 129; 27; 91; 49; 109]%N) uses53 []
     = Done [[VBool true]; [VData Str [101; 204; 129]%N]; [VData Str [101; 204; 129]%N]; []; [VBool true]; [VData Str [27; 91; 49; 109]%N]; [vint 3]; [vint 7]; [VBool false]; [];
             [VBool true]; [VData Str [13; 10]%N]].
Proof. split; [repeat constructor; cbn; auto; discriminate|]. split; [repeat split; cbn; auto; discriminate|]. vm_compute. reflexivity. Qed.

(** sentences/splitfunc.go, seek.go, iterator.go, and the lookup functions of trie.go *)
Theorem C54_sentences : exists p, ProgSentences.sentences_code = Some p
  /\ program_is_model sentences_api p 6 no_config /\ program_is_split Sentences.splitFunc p "splitFunc" 4.
Proof. exact (ex_intro _ _ (conj ProgSentences.sentences_link (conj CodeSentences.sentences_is_model CodeSentences.sentences_is_split))). Qed.
Print Assumptions C54_sentences.
(** phrases/splitfunc.go, seek.go, iterator.go, and the lookup functions of trie.go *)
Theorem C54_phrases : exists p, ProgPhrases.phrases_code = Some p
  /\ program_is_model phrases_api p 6 no_config /\ program_is_split Phrases.splitFunc p "splitFunc" 4.
Proof. exact (ex_intro _ _ (conj ProgPhrases.phrases_link (conj CodePhrases.phrases_is_model CodePhrases.phrases_is_split))). Qed.
Print Assumptions C54_phrases.

(** "A. b C." has one sentence before the last letter: SB8; phrases cuts at the full stops. *)
Definition text54 : text := (Bytes, [65; 46; 32; 98; 46; 32; 67; 46]%N).
Definition uses54 : list (use Empty_set) := [UNext; UValue; UFirst; UNext; UValue; UStart; UEnd; UNext; UReset; UNext; UEnd].
Example C54_case_sentences : Forall (use_proper false 8) uses54 /\ proper false 8 text54
  /\ go_client sentences_api ProgSentences.ps 18 6 (no_config ProgSentences.ps 18 6) text54 uses54 []
     = Done [[VBool true]; [VData Bytes [65; 46; 32; 98; 46; 32]%N]; [VData Bytes [65; 46; 32; 98; 46; 32]%N]; [VBool true]; [VData Bytes [67; 46]%N]; [vint 6]; [vint 8]; [VBool false]; []; [VBool true]; [vint 6]].
Proof. split; [repeat constructor; cbn; auto; discriminate|]. split; [repeat split; cbn; auto; discriminate|]. vm_compute. reflexivity. Qed.
Example C54_case_phrases : Forall (use_proper false 8) uses54 /\ proper false 8 text54
  /\ go_client phrases_api ProgPhrases.pp 18 6 (no_config ProgPhrases.pp 18 6) text54 uses54 []
     = Done [[VBool true]; [VData Bytes [65]%N]; [VData Bytes [65]%N]; [VBool true]; [VData Bytes [46]%N]; [vint 1]; [vint 2]; [VBool true]; []; [VBool true]; [vint 1]].
Proof. split; [repeat constructor; cbn; auto; discriminate|]. split; [repeat split; cbn; auto; discriminate|]. vm_compute. reflexivity. Qed.

(** words/splitfunc.go, seek.go, joiners.go, iterator.go, bleve_compat.go, and the lookup functions of trie.go.  The client sets joiners on the way, with nil or
    empty slices where there are none, or a nil pointer. *)
Theorem C55_words : exists p, ProgWords.words_code = Some p
  /\ (forall nils, program_is_model words_api p 7 (CodeWords.words_config nils)) /\ program_is_split Words.splitFunc p "splitFunc" 5
  /\ program_is_test Words.BleveNumeric p "BleveNumeric" 4 /\ program_is_test Words.BleveIdeographic p "BleveIdeographic" 4.
Proof. exact (ex_intro _ _ (conj ProgWords.words_link (conj CodeWords.words_is_model (conj CodeWords.words_is_split (conj CodeWords.words_is_numeric CodeWords.words_is_ideographic))))). Qed.
Print Assumptions C55_words.
(** "#a-b c": the joiners "#" (leading) and "-" (middle) make one word of the first four bytes. *)
Definition text55 : text := (Str, [35; 97; 45; 98; 32; 99]%N).
Definition uses55 : list (use (option Words.Joiners)) :=
  [UNext; UValue; UReset; UConfig (Some {| Words.Middle := [45]%N; Words.Leading := [35]%N |}); UNext; UValue; UFirst; UEnd; UConfig None; UFirst; UNext; UNext; UValue; UNext].
Example C55_case : Forall (use_proper true 6) uses55 /\ proper true 6 text55
  /\ go_client words_api ProgWords.pw 14 7 (CodeWords.words_config true ProgWords.pw 14 7) text55 uses55 []
     = Done [[VBool true]; [VData Str [35]%N]; []; []; [VBool true]; [VData Str [35; 97; 45; 98]%N]; [VData Str [35; 97; 45; 98]%N]; [vint 4]; []; [VData Str [35]%N];
             [VBool true]; [VBool true]; [VData Str [99]%N]; [VBool false]]
  /\ call ProgWords.pw 14 4 ("", "BleveNumeric") [VData Bytes [51; 44; 49]%N] [] = Done ([VBool true], [])
  /\ call ProgWords.pw 14 4 ("", "BleveIdeographic") [VData Bytes [228; 184; 150]%N] [] = Done ([VBool true], []).
Proof. split; [repeat constructor; cbn; auto; discriminate|]. split; [repeat split; cbn; auto; discriminate|]. vm_compute. repeat split; reflexivity. Qed.

(** internal/iterators/iterator.go, with any split functions: what each call returns, and which call panics. *)
Theorem C56_iterators : exists p, ProgOther.iterators_code = Some p /\ iterators_program_is_model p.
Proof. exact (ex_intro _ _ (conj ProgOther.iterators_link CodeOther.iterators_is_model)). Qed.
Print Assumptions C56_iterators.
(** words, where the client also sets split functions of their own. *)
Theorem C56_words_split : exists p, ProgWords.words_code = Some p /\ words_program_is_model p 7.
Proof. exact (ex_intro _ _ (conj ProgWords.words_link CodeWordsAny.words_any_is_model)). Qed.
Print Assumptions C56_words_split.
(** internal/iterators/filter/filter.go, for any unicode.IsLetter and unicode.IsNumber. *)
Theorem C56_filter : forall letter number, exists p, ProgOther.filter_code letter number = Some p /\ program_is_test (Filter.AlphaNumeric letter number) p "AlphaNumeric" 1.
Proof. exact (fun letter number => ex_intro _ _ (conj (ProgOther.filter_link letter number) (CodeOther.filter_is_model letter number))). Qed.
Print Assumptions C56_filter.
(** Two bytes at a time, one byte before an "x", an error at a "!": the single last byte is not asked about; with "ab!!" the second call of Next panics. *)
Definition split56 : splitfun := fun d _ => match d with
  | 33 :: _ => Ok {| so_advance := 0; so_token := None; so_err := Some 7%N |}
  | [_] | _ :: 120 :: _ => Ok {| so_advance := 1; so_token := None; so_err := None |}
  | _ => Ok {| so_advance := 2; so_token := Some (firstn 2 d); so_err := None |}
  end%N.
Definition uses56 : list (use splitfun) := [UNext; UValue; UFirst; UNext; UValue; UStart; UEnd; UNext; UEnd].
Example C56_case_iterators : returns_ints split56 /\ proper true 6 (Str, [97; 98; 99; 120; 33; 33]%N) /\ Forall (it_use_proper true 6) uses56
  /\ go_it_client ProgOther.pi_ 0 1 split56 (Str, [97; 98; 99; 120; 33; 33]%N) uses56 []
     = Done [[VBool true]; [VData Str [97; 98]%N]; [VData Str [97; 98]%N]; [VBool true]; [VData Str [99]%N]; [vint 2]; [vint 3]; [VBool true]; [vint 5]]
  /\ go_it_client ProgOther.pi_ 0 1 split56 (Str, [97; 98; 99; 120; 33; 33]%N) (uses56 ++ [UNext; UNext]) [] = Done [[VBool true]; [VData Str [97; 98]%N]; [VData Str [97; 98]%N]; [VBool true]; [VData Str [99]%N]; [vint 2]; [vint 3]; [VBool true]; [vint 5]; [VBool true]; [VBool false]]
  /\ go_it_client ProgOther.pi_ 0 1 split56 (Str, [97; 98; 33; 33]%N) [UNext; UNext] [] = Panics.
Proof.
  split. { intros d b o. unfold split56. repeat match goal with |- context [match ?x with _ => _ end] => destruct x end; intros E; injection E as <-; cbn; lia. }
  split; [repeat split; cbn; auto; discriminate|]. split; [repeat constructor|]. vm_compute. repeat split; reflexivity.
Qed.
Example C56_case_words : modest split56 /\ Forall (any_use_proper true 4) [UConfig (inr split56); UNext; UNext]
  /\ go_client words_any ProgWords.pw 14 7 (words_any_config true ProgWords.pw 14 7) (Str, [44; 98; 46; 46]%N) [UConfig (inr split56); UNext; UValue; UConfig (inl None); UNext; UValue] []
     = Done [[]; [VBool true]; [VData Str [44; 98]%N]; []; [VBool true]; [VData Str [46]%N]]
  /\ go_client words_any ProgWords.pw 14 7 (words_any_config true ProgWords.pw 14 7) (Str, [44; 98; 33; 33]%N) [UConfig (inr split56); UNext; UNext] [] = Panics.
Proof.
  assert (MO : modest split56). { intros d b o. unfold split56. repeat match goal with |- context [match ?x with _ => _ end] => destruct x end; intros E; injection E as <-; cbn; lia. }
  split; [exact MO|]. split; [repeat constructor; exact MO|]. vm_compute. repeat split; reflexivity.
Qed.
Example C56_case_filter : call (ProgOther.pf (fun r => (r =? 233)%N) (fun _ => false)) 10 1 ("", "AlphaNumeric") [VData Bytes [33; 195; 169]%N] [] = Done ([VBool true], [])
  /\ call (ProgOther.pf (fun r => (r =? 233)%N) (fun _ => false)) 10 1 ("", "AlphaNumeric") [VData Bytes [33; 195; 168]%N] [] = Done ([VBool false], []).
Proof. vm_compute. split; reflexivity. Qed.
