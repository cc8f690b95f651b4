(** C58.  The text of reader.go and of the package, with bufio.Scanner: the client's loop over a Reader. *)
From Coq Require Import String.
From Verif Require Import SpecIter SpecApi ApiInst SpecUtf8 SpecRules SpecUcd SpecGraphemes SpecWords SpecSentences.
From Verif Require Scanner SpecReader PropReader PropConform ReaderFacts.
From Verif Require Import Base GoSyntax GoSem SpecCode SpecCodeReader CodeReaders CodeText.
From Verif Require Graphemes Words Sentences Phrases ProgGraphemes CodeGraphemes ProgSentences CodeSentences ProgPhrases CodePhrases ProgWords CodeWords.
Local Open Scope string_scope.
Local Open Scope list_scope.

Theorem C58_graphemes : reader_text ProgGraphemes.graphemes_code file_graphemes_reader Graphemes.splitFunc grapheme_decides.
Proof.
  apply (reader_ok graphemes_api_ok _ _ _ _ _ _ 3 ProgGraphemes.graphemes_link parse_g); [cbn; tauto|reflexivity|lia|exact CodeGraphemes.graphemes_is_split|exact PropReader.C13_graphemes|exact PropReader.C13_graphemes_short|].
  intros cps fuel S L. destruct (PropConform.C05_graphemes_are_uax29 cps fuel S L) as (segs & H1 & H2 & _). eauto.
Qed.
Print Assumptions C58_graphemes.
Theorem C58_words : reader_text ProgWords.words_code file_words_reader Words.splitFunc word_decides.
Proof.
  apply (reader_ok words_api_ok _ _ _ _ _ _ 5 ProgWords.words_link parse_w); [cbn; tauto|reflexivity|lia|exact CodeWords.words_is_split|exact PropReader.C13_words|exact PropReader.C13_words_short|].
  intros cps fuel S L. destruct (PropConform.C06_words_are_uax29 cps fuel S L) as (segs & H1 & H2 & _). eauto.
Qed.
Print Assumptions C58_words.
Theorem C58_sentences : reader_text ProgSentences.sentences_code file_sentences_reader Sentences.splitFunc sentence_decides.
Proof.
  apply (reader_ok sentences_api_ok _ _ _ _ _ _ 4 ProgSentences.sentences_link parse_s); [cbn; tauto|reflexivity|lia|exact CodeSentences.sentences_is_split|exact PropReader.C13_sentences|exact PropReader.C13_sentences_short|].
  intros cps fuel S L. destruct (PropConform.C07_sentences_are_uax29 cps fuel S L) as (segs & H1 & H2 & _). eauto.
Qed.
Print Assumptions C58_sentences.
Theorem C58_phrases : reader_text ProgPhrases.phrases_code file_phrases_reader Phrases.splitFunc phrase_decides.
Proof.
  apply (reader_ok phrases_api_ok _ _ _ _ _ _ 4 ProgPhrases.phrases_link parse_p); [cbn; tauto|reflexivity|lia|exact CodePhrases.phrases_is_split|exact PropReader.C13_phrases|exact PropReader.C13_phrases_short|].
  intros cps fuel S L. destruct (PropConform.C08_phrases_are_tailored_words cps fuel S L) as (segs & H1 & H2 & _). eauto.
Qed.
Print Assumptions C58_phrases.
Theorem C58_words_joiners : joiners_text ProgWords.words_code file_words_reader
  (fun j => Words.joinersSplitFunc (match j with Some (m, l) => Some {| Words.Middle := m; Words.Leading := l |} | None => None end)).
Proof. exact joiners_ok. Qed.
Print Assumptions C58_words_joiners.

(** "a-b c" in two reads, without and with the joiner '-'. *)
Definition reads58 : list bytes := [[97; 45]; [98; 32; 99]]%N.
Definition scan58 (s : option (res (Scanner.scanner * bool))) : option (list bytes * option Scanner.serr) :=
  match s with Some (Ok (s, _)) => match Scanner.scan_all (SpecReader.chunk_reader Scanner.EOF) 20 s reads58 with Ok x => Some x | _ => None end | _ => None end.
Definition lines58 : splitfun := fun _ _ => Panic.
Example C58_case : SpecReader.delivers (SpecReader.chunk_reader Scanner.EOF) reads58 (concat reads58) Scanner.EOF /\ SpecReader.lively (SpecReader.chunk_reader Scanner.EOF) 100 reads58
  /\ small (Scanner.FromReader lines58)
  /\ scan58 (text_FromReader ProgWords.pw pw_reader true [] lines58) = Some ([[97]; [45]; [98]; [32]; [99]]%N, None)
  /\ match text_FromReader ProgWords.pw pw_reader true [] lines58 with
     | Some (Ok (s, _)) => let (v, h) := joiners_arg true (Some ([45]%N, [])) [] in scan58 (text_Joiners ProgWords.pw pw_reader true h lines58 s v) = Some ([[97; 45; 98]; [32]; [99]]%N, None)
     | _ => False
     end.
Proof.
  split; [apply (ReaderFacts.chunk_delivers Scanner.EOF reads58)|]. split; [apply ReaderFacts.chunk_lively; repeat constructor; discriminate|]. split; [split; reflexivity|].
  split; vm_compute; reflexivity.
Qed.
