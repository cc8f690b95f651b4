(** C67: text that is not well-formed UTF-8. *)
From Verif Require Import Base ListFacts SpecUtf8 SpecIter SpecApi SpecUcd SpecRules SpecGraphemes SpecWords SpecSentences SegFacts ConformApi ApiInst SpecIll IllFacts IllSim IllRules IllSentences.
From Verif Require GraphemesIter GraphemesConform WordsIter WordsConform SentencesConform PhrasesConform GenTestsFacts JoinersFacts SpecJoiners.
From Verif Require Graphemes Words Sentences Phrases.

(** Every string of bytes is divided into units in exactly one way, and the units of well-formed text are its characters. *)
Theorem C67_units : (forall d, exists us tail, units d us tail /\ d = concat us ++ tail /\ forall us' tail', units d us' tail' -> us' = us /\ tail' = tail)
  /\ (forall cps, scalars cps -> units (encode cps) (map utf8 cps) [])
  /\ (forall u, (scalar (character u) /\ utf8 (character u) = u) \/ (character u = 0xFFFD%N /\ forall c, scalar c -> u <> utf8 c)).
Proof.
  split; [|split; [exact units_encode|exact character_cases]]. intros d. destruct (units_exist d) as (us & tail & U). exists us, tail.
  split; [exact U|]. split; [exact (units_concat _ _ _ U)|]. intros us' tail' U'. exact (units_fun _ _ _ U _ _ U').
Qed.
Print Assumptions C67_units.

(** The tokens of [d] are groups of its units, the tail with the last; and the groups are the segments of the characters. *)
Definition cut_as_characters (decides : text -> text -> op -> Prop) (toks : bytes -> nat -> res (list bytes)) : Prop :=
  forall d us tail fuel, units d us tail -> length d < fuel ->
    exists segs : list (list bytes), concat segs = us /\ toks d fuel = Ok (with_tail (map (@concat N) segs) tail)
      /\ segmentation decides (map character us) (map (map character) segs)
      /\ forall segs', segmentation decides (map character us) segs' -> segs' = map (map character) segs.

Lemma stand_full : forall full : list (list bytes), map (fun s => stand s) full = map encode (map (map character) full).
Proof. intros full. rewrite map_map. reflexivity. Qed.
Lemma full_scalars : forall full : list (list bytes), Forall scalars (map (map character) full).
Proof. intros full. apply Forall_map. apply Forall_forall. intros s _. apply chars_scalars. Qed.
Lemma segs_scalars : forall decides cps segs, scalars cps -> segmentation decides cps segs -> Forall scalars segs.
Proof. intros decides cps segs Hs (E & _). subst cps. apply GenTestsFacts.scalars_concat. exact Hs. Qed.

Lemma alike_segments : forall f decides d us tail, (forall cps, scalars cps -> exists segs, chop f (S (length (encode cps))) (encode cps) = Ok (map encode segs) /\ segmentation decides cps segs) ->
  cut_alike f d us tail -> exists segs : list (list bytes), concat segs = us /\ chop f (S (length d)) d = Ok (with_tail (map (@concat N) segs) tail)
    /\ segmentation decides (map character us) (map (map character) segs).
Proof.
  intros f decides d us tail CF (segs & H1 & _ & H2 & H3). exists segs. split; [exact H1|]. split; [exact H2|].
  destruct (CF _ (chars_scalars us)) as (s & Hc & Hs). rewrite Hc, stand_full in H3. injection H3 as H3.
  rewrite <- (GenTestsFacts.map_encode_inj _ _ (segs_scalars _ _ _ (chars_scalars us) Hs) (full_scalars segs) H3). exact Hs.
Qed.

Theorem C67_graphemes : cut_as_characters grapheme_decides (fun d fuel => tokens graphemes_api fuel (Graphemes.FromBytes d)).
Proof.
  intros d us tail fuel U Hf. destruct (alike_segments _ _ _ _ _ GraphemesConform.g_conform (g_alike d us tail U)) as (segs & H1 & H2 & H3). exists segs. split; [exact H1|].
  split; [|split; [exact H3|intros; eapply segmentation_unique; eauto]].
  eapply (tokens_chop _ _ _ _ _ _ _ _ _ graphemes_api_ok); [exact Hf|]. cbn [fst snd]. rewrite (chop_ext _ _ GraphemesIter.g_isplit_off). exact H2.
Qed.
Print Assumptions C67_graphemes.
Theorem C67_words : cut_as_characters word_decides (fun d fuel => tokens words_api fuel (Words.FromBytes d)).
Proof.
  intros d us tail fuel U Hf. destruct (alike_segments _ _ _ _ _ WordsConform.w_conform (w_alike WordsConform.J0 d us tail U)) as (segs & H1 & H2 & H3). exists segs. split; [exact H1|].
  split; [|split; [exact H3|intros; eapply segmentation_unique; eauto]].
  eapply (tokens_chop _ _ _ _ _ _ _ _ _ words_api_ok); [exact Hf|]. cbn [fst snd]. rewrite (chop_eof _ _ (WordsIter.hot_path_agrees WordsConform.J0 eq_refl)). exact H2.
Qed.
Print Assumptions C67_words.
Theorem C67_phrases : cut_as_characters phrase_decides (fun d fuel => tokens phrases_api fuel (Phrases.FromBytes d)).
Proof.
  intros d us tail fuel U Hf. destruct (alike_segments _ _ _ _ _ PhrasesConform.p_conform (p_alike d us tail U)) as (segs & H1 & H2 & H3). exists segs. split; [exact H1|].
  split; [|split; [exact H3|intros; eapply segmentation_unique; eauto]].
  eapply (tokens_chop _ _ _ _ _ _ _ _ _ phrases_api_ok); [exact Hf|]. exact H2.
Qed.
Print Assumptions C67_phrases.

(** With joiners: the text in which every ill-formed unit is U+FFFD is cut in the same places. *)
Theorem C67_joiners : forall j d us tail fuel, SpecJoiners.no_middle_space j -> units d us tail -> length d < fuel -> length (encode (map character us)) < fuel ->
  exists segs : list (list bytes), concat segs = us /\ Forall (fun s => s <> []) segs
    /\ tokens words_api fuel (Words.setJoiners (Words.FromBytes d) j) = Ok (with_tail (map (@concat N) segs) tail)
    /\ tokens words_api fuel (Words.setJoiners (Words.FromBytes (encode (map character us))) j) = Ok (map encode (map (map character) segs)).
Proof.
  intros j d us tail fuel NS U Hf Hf'. destruct (w_alike j d us tail U) as (segs & H1 & H2 & H3 & H4). exists segs. split; [exact H1|]. split; [exact H2|].
  split; [exact (JoinersFacts.joiners_agree j NS _ _ _ Hf H3)|]. rewrite <- stand_full. exact (JoinersFacts.joiners_agree j NS _ _ _ Hf' H4).
Qed.
Print Assumptions C67_joiners.

(** Sentences of text with no character cut off at the end. *)
Theorem C67_sentences : forall d us fuel, units d us [] -> length d < fuel ->
  exists segs : list (list bytes), concat segs = us /\ tokens sentences_api fuel (Sentences.FromBytes d) = Ok (map (@concat N) segs)
    /\ segmentation sentence_decides (map character us) (map (map character) segs)
    /\ forall segs', segmentation sentence_decides (map character us) segs' -> segs' = map (map character) segs.
Proof.
  intros d us fuel U Hf. destruct (alike_segments _ _ _ _ _ SentencesConform.s_conform (s_alike d us U)) as (segs & H1 & H2 & H3). exists segs. split; [exact H1|].
  split; [|split; [exact H3|intros; eapply segmentation_unique; eauto]].
  eapply (tokens_chop _ _ _ _ _ _ _ _ _ sentences_api_ok); [exact Hf|]. etransitivity; [exact H2|]. f_equal.
  clear. induction segs as [|s [|t l] IH]; [reflexivity|cbn [map with_tail]; rewrite app_nil_r; reflexivity|]. cbn [map with_tail] in *. f_equal. exact IH.
Qed.
Print Assumptions C67_sentences.
(** With one, the text before it is cut as if a lower case letter followed; the cut-off character itself goes with the last sentence. *)
Theorem C67_sentences_tail : forall d us tail fuel, units d us tail -> tail <> [] -> length d < fuel ->
  exists segs : list (list bytes), concat segs = us /\ Forall (fun s => s <> []) segs
    /\ tokens sentences_api fuel (Sentences.FromBytes d) = Ok (with_tail (map (@concat N) segs) tail)
    /\ exists full, segmentation sentence_decides (map character us ++ [97%N]) full
      /\ (full = map (map character) segs ++ [[97%N]] \/ exists s0 s, segs = s0 ++ [s] /\ full = map (map character) s0 ++ [map character s ++ [97%N]]).
Proof.
  intros d us tail fuel U Nt Hf. destruct (s_letter d us tail U Nt) as (segs & fu & H1 & H2 & H3 & H4 & H5). exists segs. split; [exact H1|]. split; [exact H2|].
  split; [eapply (tokens_chop _ _ _ _ _ _ _ _ _ sentences_api_ok); [exact Hf|]; exact H4|].
  destruct (SentencesConform.s_conform _ (chars_scalars (us ++ [letter]))) as (s & Hc & Hs). rewrite Hc, stand_full in H5. injection H5 as H5.
  pose proof (GenTestsFacts.map_encode_inj _ _ (segs_scalars _ _ _ (chars_scalars _) Hs) (full_scalars fu) H5) as E. rewrite E in Hs. exists (map (map character) fu).
  rewrite map_app in Hs. split; [exact Hs|]. destruct H3 as [->|(s0 & t & -> & ->)].
  - left. rewrite map_app. reflexivity.
  - right. exists s0, t. split; [reflexivity|]. rewrite map_app. cbn [map]. rewrite map_app. reflexivity.
Qed.
Print Assumptions C67_sentences_tail.
(** So a cut-off character can undo a boundary before it, which a U+FFFD would not: "a. 1" and the first byte of a character of three. *)
Theorem C67_tail_undoes_refuted : exists d us tail fuel, units d us tail /\ length d < fuel /\ tail <> []
  /\ tokens sentences_api fuel (Sentences.FromBytes d) = Ok [d]
  /\ tokens sentences_api fuel (Sentences.FromBytes (concat us)) = Ok [[97; 46; 32]; [49]]%N
  /\ tokens sentences_api fuel (Sentences.FromBytes (concat us ++ utf8 0xFFFD)) = Ok [[97; 46; 32]; 49 :: utf8 0xFFFD]%N.
Proof.
  exists [97; 46; 32; 49; 228]%N, [[97]; [46]; [32]; [49]]%N, [228]%N, 20.
  split. { repeat (apply (units_more [_]); [reflexivity|]). apply units_end. reflexivity. }
  split; [cbn; lia|]. split; [discriminate|]. split; [vm_compute; reflexivity|]. split; vm_compute; reflexivity.
Qed.
Print Assumptions C67_tail_undoes_refuted.

(** A stray continuation byte, a surrogate, an overlong solidus, a lead byte before a letter, and a letter after a byte announcing three. *)
Definition bytes67 : bytes := [97; 128; 237; 160; 128; 192; 175; 206; 98; 204; 129; 228; 99]%N.
Example C67_case : units bytes67 [[97]; [128]; [237; 160; 128]; [192]; [175]; [206]; [98]; [204; 129]]%N [228; 99]%N
  /\ map character [[97]; [128]; [237; 160; 128]; [192]; [175]; [206]; [98]; [204; 129]]%N = [97; 0xFFFD; 0xFFFD; 0xFFFD; 0xFFFD; 0xFFFD; 98; 0x301]%N
  /\ tokens graphemes_api 20 (Graphemes.FromBytes bytes67) = Ok [[97]; [128]; [237; 160; 128]; [192]; [175]; [206]; [98; 204; 129; 228; 99]]%N
  /\ tokens words_api 20 (Words.FromBytes bytes67) = Ok [[97]; [128]; [237; 160; 128]; [192]; [175]; [206]; [98; 204; 129; 228; 99]]%N
  /\ tokens sentences_api 20 (Sentences.FromBytes bytes67) = Ok [bytes67].
Proof.
  split. { unfold bytes67. apply (units_more [97%N]); [reflexivity|]. apply (units_more [128%N]); [reflexivity|]. apply (units_more [237; 160; 128]%N); [reflexivity|].
    apply (units_more [192%N]); [reflexivity|]. apply (units_more [175%N]); [reflexivity|]. apply (units_more [206%N]); [reflexivity|]. apply (units_more [98%N]); [reflexivity|].
    apply (units_more [204; 129]%N); [reflexivity|]. apply units_end. reflexivity. }
  split; [vm_compute; reflexivity|]. split; [vm_compute; reflexivity|]. split; vm_compute; reflexivity.
Qed.
