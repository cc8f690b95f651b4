(** The four packages as instances of the client-side API. *)
From Verif Require Import Base ListFacts Engine SpecIter SpecApi Drive ApiFacts.
From Verif Require GraphemesIter WordsIter WordsEngine SentencesIter PhrasesIter.
From Verif Require Graphemes Words Sentences Phrases.

(** graphemes: the settings are the two exported flags. *)
Definition graphemes_api : api := {|
  It := Graphemes.iter; Cfg := bool * bool;
  a_new := Graphemes.FromBytes; a_next := Graphemes.Next; a_value := Graphemes.Value;
  a_start := Graphemes.Start; a_end := Graphemes.End_; a_reset := Graphemes.Reset;
  a_settext := Graphemes.SetText; a_first := Graphemes.First;
  a_config := fun it c => Graphemes.setAnsi it (fst c) (snd c) |}.
(** words: the settings are the joiners (nil is None). *)
Definition words_api : api := {|
  It := Words.iter; Cfg := option Words.Joiners;
  a_new := Words.FromBytes; a_next := Words.Next; a_value := Words.Value;
  a_start := Words.Start; a_end := Words.End_; a_reset := Words.Reset;
  a_settext := Words.SetText; a_first := Words.First;
  a_config := Words.setJoiners |}.
(** sentences, phrases: no settings. *)
Definition sentences_api : api := {|
  It := Sentences.iter; Cfg := Empty_set;
  a_new := Sentences.FromBytes; a_next := Sentences.Next; a_value := Sentences.Value;
  a_start := Sentences.Start; a_end := Sentences.End_; a_reset := Sentences.Reset;
  a_settext := Sentences.SetText; a_first := Sentences.First;
  a_config := fun it _ => it |}.
Definition phrases_api : api := {|
  It := Phrases.iter; Cfg := Empty_set;
  a_new := Phrases.FromBytes; a_next := Phrases.Next; a_value := Phrases.Value;
  a_start := Phrases.Start; a_end := Phrases.End_; a_reset := Phrases.Reset;
  a_settext := Phrases.SetText; a_first := Phrases.First;
  a_config := fun it _ => it |}.

Lemma graphemes_api_ok : api_ok graphemes_api Graphemes.it_data Graphemes.it_pos Graphemes.it_start
  (fun it k => Graphemes.it_ansi7 it = fst k /\ Graphemes.it_ansi8 it = snd k)
  (fun k => GraphemesIter.g_isplit (fst k) (snd k)) (false, false) (fun c _ => c).
Proof.
  split; try reflexivity; try (intros; repeat split; auto; tauto).
  intros k. apply GraphemesIter.g_next_ok.
Qed.
Lemma words_api_ok : api_ok words_api Words.it_data Words.it_pos Words.it_start
  (fun it j => Words.it_split it = Words.joinersSplitFunc j)
  (fun j => WordsIter.w_isplit (Words.joinersSplitFunc j)) (Some {| Words.Middle := []; Words.Leading := [] |}) (fun c _ => c).
Proof.
  split; try reflexivity; try (intros; repeat split; auto; tauto).
  intros j. apply WordsIter.w_next_ok. exact (so_eof _ (WordsEngine.w_split_ok j)).
Qed.
Lemma sentences_api_ok : api_ok sentences_api Sentences.it_data Sentences.it_pos Sentences.it_start
  (fun it (_ : unit) => True) (fun _ => Sentences.splitFunc) tt (fun c _ => tt).
Proof.
  split; try reflexivity; try (intros; repeat split; auto; tauto).
  intros k. apply SentencesIter.s_next_ok.
Qed.
Lemma phrases_api_ok : api_ok phrases_api Phrases.it_data Phrases.it_pos Phrases.it_start
  (fun it (_ : unit) => True) (fun _ => Phrases.splitFunc) tt (fun c _ => tt).
Proof.
  split; try reflexivity; try (intros; repeat split; auto; tauto).
  intros k. apply PhrasesIter.p_next_ok.
Qed.
