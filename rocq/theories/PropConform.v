(** Properties C05-C08: tokens are the segments of UAX #29. *)
From Verif Require Import Base SpecUtf8 SpecIter SpecApi SpecRules SpecUcd SpecGraphemes SpecWords SpecSentences SegFacts ConformApi ApiInst.
From Verif Require GraphemesIter GraphemesConform WordsIter WordsConform SentencesConform PhrasesConform.
From Verif Require Graphemes Words Sentences Phrases.

(** ** C05 *)
Theorem C05_graphemes_are_uax29 : forall cps fuel, scalars cps -> length (encode cps) < fuel ->
  exists segs, tokens graphemes_api fuel (Graphemes.FromBytes (encode cps)) = Ok (map encode segs)
    /\ segmentation grapheme_decides cps segs
    /\ forall segs', segmentation grapheme_decides cps segs' -> segs' = segs.
Proof.
  intros cps fuel Hs Hf. destruct (GraphemesConform.g_conform cps Hs) as (segs & Hc & Hseg). exists segs.
  split; [|split; [exact Hseg|intros; eapply segmentation_unique; eauto]].
  eapply (tokens_chop _ _ _ _ _ _ _ _ _ graphemes_api_ok); [exact Hf|]. cbn [fst snd].
  rewrite (chop_ext _ _ GraphemesIter.g_isplit_off). exact Hc.
Qed.
Print Assumptions C05_graphemes_are_uax29.
(** man ZWJ laptop, flag flag (4 regional indicators) and one more, KA VIRAMA SSA, CR LF *)
Example C05_case :
  let segs := [[0x1F468; 0x200D; 0x1F4BB]; [0x1F1E6; 0x1F1E7]; [0x1F1E8; 0x1F1E9]; [0x1F1EA]; [0x915; 0x94D; 0x937]; [13; 10]]%N in
  scalars (concat segs) /\ tokens graphemes_api 100 (Graphemes.FromBytes (encode (concat segs))) = Ok (map encode segs).
Proof. split; [repeat (constructor; [unfold scalar; lia|]); constructor|vm_compute; reflexivity]. Qed.

(** ** C06 *)
Theorem C06_words_are_uax29 : forall cps fuel, scalars cps -> length (encode cps) < fuel ->
  exists segs, tokens words_api fuel (Words.FromBytes (encode cps)) = Ok (map encode segs)
    /\ segmentation word_decides cps segs
    /\ forall segs', segmentation word_decides cps segs' -> segs' = segs.
Proof.
  intros cps fuel Hs Hf. destruct (WordsConform.w_conform cps Hs) as (segs & Hc & Hseg). exists segs.
  split; [|split; [exact Hseg|intros; eapply segmentation_unique; eauto]].
  eapply (tokens_chop _ _ _ _ _ _ _ _ _ words_api_ok); [exact Hf|]. cbn [fst snd].
  rewrite (chop_eof _ _ (WordsIter.hot_path_agrees WordsConform.J0 eq_refl)). exact Hc.
Qed.
Print Assumptions C06_words_are_uax29.
(** "can't", space space, "3.14", "a" combining acute, "," "A:" "b" ("A:b" with an ignored character after the colon), CR LF, COMBINING ACUTE (alone after a line end) *)
Example C06_case :
  let segs := [[99; 97; 110; 39; 116]; [32; 32]; [51; 46; 49; 52]; [32]; [97; 0x301]; [44]; [65; 58; 0x2060; 98]; [13; 10]; [0x301]; [0x1F1E6; 0x200D; 0x1F1E7]; [0x1F1E8]]%N in
  scalars (concat segs) /\ tokens words_api 100 (Words.FromBytes (encode (concat segs))) = Ok (map encode segs).
Proof. split; [repeat (constructor; [unfold scalar; lia|]); constructor|vm_compute; reflexivity]. Qed.

(** ** C07 *)
Theorem C07_sentences_are_uax29 : forall cps fuel, scalars cps -> length (encode cps) < fuel ->
  exists segs, tokens sentences_api fuel (Sentences.FromBytes (encode cps)) = Ok (map encode segs)
    /\ segmentation sentence_decides cps segs
    /\ forall segs', segmentation sentence_decides cps segs' -> segs' = segs.
Proof.
  intros cps fuel Hs Hf. destruct (SentencesConform.s_conform cps Hs) as (segs & Hc & Hseg). exists segs.
  split; [|split; [exact Hseg|intros; eapply segmentation_unique; eauto]].
  eapply (tokens_chop _ _ _ _ _ _ _ _ _ sentences_api_ok); [exact Hf|]. exact Hc.
Qed.
Print Assumptions C07_sentences_are_uax29.
(** "U.S. ) a b? " - "Ok 3.14!) " CR LF - COMBINING ACUTE "e.) 5" COMBINING ACUTE " a. " - "(B.": full stops before an upper
    case letter, a digit, and (across brackets, digits and spaces) a lower case letter *)
Example C07_case :
  let segs := [[85; 46; 83; 46; 32; 41; 32; 97; 32; 98; 63; 32]; [79; 107; 32; 51; 46; 49; 52; 33; 41; 32; 13; 10]; [0x301; 101; 46; 41; 32; 53; 0x301; 32; 97; 46; 32]; [40; 66; 46]]%N in
  scalars (concat segs) /\ tokens sentences_api 100 (Sentences.FromBytes (encode (concat segs))) = Ok (map encode segs).
Proof. split; [repeat (constructor; [unfold scalar; lia|]); constructor|vm_compute; reflexivity]. Qed.

(** ** C08 *)
Theorem C08_phrases_are_tailored_words : forall cps fuel, scalars cps -> length (encode cps) < fuel ->
  exists segs, tokens phrases_api fuel (Phrases.FromBytes (encode cps)) = Ok (map encode segs)
    /\ segmentation phrase_decides cps segs
    /\ forall segs', segmentation phrase_decides cps segs' -> segs' = segs.
Proof.
  intros cps fuel Hs Hf. destruct (PhrasesConform.p_conform cps Hs) as (segs & Hc & Hseg). exists segs.
  split; [|split; [exact Hseg|intros; eapply segmentation_unique; eauto]].
  eapply (tokens_chop _ _ _ _ _ _ _ _ _ phrases_api_ok); [exact Hf|]. exact Hc.
Qed.
Print Assumptions C08_phrases_are_tailored_words.
(** "I can't go 3.5 km", comma, space "ok" emoji emoji, CR LF, a lone combining acute *)
Example C08_case :
  let segs := [[73; 32; 99; 97; 110; 39; 116; 32; 103; 111; 32; 51; 46; 53; 32; 107; 109]; [44]; [32; 111; 107; 0x1F600; 0x1F601]; [13; 10]; [0x301]]%N in
  scalars (concat segs) /\ tokens phrases_api 100 (Phrases.FromBytes (encode (concat segs))) = Ok (map encode segs).
Proof. split; [repeat (constructor; [unfold scalar; lia|]); constructor|vm_compute; reflexivity]. Qed.
