(** C92: a boundary found in a short stretch with settling characters is a safe place to cut any text that holds the stretch. *)
From Verif Require Import Base ListFacts SpecUtf8 SpecIter SpecApi SpecRules SpecUcd SpecGraphemes SpecNest SpecLocal RuleFacts SegFacts NestFacts Conform ApiInst PropConform PropPieces SpaceFacts LocalFacts.
From Verif Require Graphemes Words Sentences Phrases SpecWords SpecSentences.

Section Cut.
  Variable tok : nat -> bytes -> res (list bytes).
  Variable D : text -> text -> op -> Prop.
  Lemma stretch_break : (forall cps fuel, scalars cps -> length (encode cps) < fuel ->
      exists segs, tok fuel (encode cps) = Ok (map encode segs) /\ segmentation D cps segs /\ forall segs', segmentation D cps segs' -> segs' = segs) ->
    forall near next fuel0 toks, scalars (near ++ next) -> near <> [] -> next <> [] -> length (encode (near ++ next)) < fuel0 ->
    tok fuel0 (encode (near ++ next)) = Ok toks -> boundary toks (length (encode near)) -> D near next Break.
  Proof.
    intros C near next fuel0 toks Hs N1 N2 Hf E B. destruct (C _ _ Hs Hf) as (segs & E' & G & _). rewrite E in E'. injection E' as ->.
    apply (seg_boundary D _ segs G near next N1 N2 eq_refl). exact B.
  Qed.
End Cut.
Ltac some_in I := intros K; rewrite K in I; destruct I.

(** Graphemes: if the tokens of [near ++ next] come apart between [near] and [next], then in any text that holds [near ++ next] the parts before and after may be cut separately. *)
Theorem C92_graphemes : forall b near next a fuel0 toks fuel, scalars b -> scalars near -> scalars next -> scalars a -> Exists g_settles near -> next <> [] ->
  length (encode (near ++ next)) < fuel0 -> tokens graphemes_api fuel0 (Graphemes.FromBytes (encode (near ++ next))) = Ok toks -> boundary toks (length (encode near)) ->
  length (encode ((b ++ near) ++ next ++ a)) < fuel ->
  exists before after, tokens graphemes_api fuel (Graphemes.FromBytes (encode (b ++ near))) = Ok before
    /\ tokens graphemes_api fuel (Graphemes.FromBytes (encode (next ++ a))) = Ok after
    /\ tokens graphemes_api fuel (Graphemes.FromBytes (encode ((b ++ near) ++ next ++ a))) = Ok (before ++ after).
Proof.
  intros b near next a fuel0 toks fuel Sb Sn Sx Sa X Z Hf0 E B Hf. apply Exists_exists in X as (x & I & S). assert (NN := Z).
  refine (cut_at (fun fuel d => tokens graphemes_api fuel (Graphemes.FromBytes d)) grapheme_decides C05_graphemes_are_uax29 C48_graphemes (b ++ near) (next ++ a) fuel _ _ _ Hf); [apply Forall_app; auto|apply Forall_app; auto|]. intros _ _.
  assert (K : grapheme_decides near next Break) by (refine (stretch_break (fun fuel d => tokens graphemes_api fuel (Graphemes.FromBytes d)) grapheme_decides C05_graphemes_are_uax29 near next fuel0 toks _ ltac:(some_in I) NN Hf0 E B); apply Forall_app; auto).
  destruct next as [|y n]; [contradiction|]. apply (g_local [] b near x n (n ++ a) y Break); auto. unfold scalars in Sn. rewrite Forall_forall in Sn. auto.
Qed.
Print Assumptions C92_graphemes.

(** Words: the same. *)
Theorem C92_words : forall b near next a fuel0 toks fuel, scalars b -> scalars near -> scalars next -> scalars a -> Exists w_settles_left near -> Exists w_settles next ->
  length (encode (near ++ next)) < fuel0 -> tokens words_api fuel0 (Words.FromBytes (encode (near ++ next))) = Ok toks -> boundary toks (length (encode near)) ->
  length (encode ((b ++ near) ++ next ++ a)) < fuel ->
  exists before after, tokens words_api fuel (Words.FromBytes (encode (b ++ near))) = Ok before
    /\ tokens words_api fuel (Words.FromBytes (encode (next ++ a))) = Ok after
    /\ tokens words_api fuel (Words.FromBytes (encode ((b ++ near) ++ next ++ a))) = Ok (before ++ after).
Proof.
  intros b near next a fuel0 toks fuel Sb Sn Sx Sa X Z Hf0 E B Hf. apply Exists_exists in X as (x & I & S). apply Exists_exists in Z as (z & J & S'). assert (NN : next <> []) by (some_in J).
  refine (cut_at (fun fuel d => tokens words_api fuel (Words.FromBytes d)) SpecWords.word_decides C06_words_are_uax29 C48_words_plain (b ++ near) (next ++ a) fuel _ _ _ Hf); [apply Forall_app; auto|apply Forall_app; auto|]. intros _ _.
  assert (K : SpecWords.word_decides near next Break) by (refine (stretch_break (fun fuel d => tokens words_api fuel (Words.FromBytes d)) SpecWords.word_decides C06_words_are_uax29 near next fuel0 toks _ ltac:(some_in I) NN Hf0 E B); apply Forall_app; auto).
  pose proof (w_local (SpecWords.wc WB_ALetter) [] eq_refl [] b near x next z [] a Break I S J S') as L. rewrite app_nil_r in L. exact (L K).
Qed.
Print Assumptions C92_words.

(** Phrases: the same. *)
Theorem C92_phrases : forall b near next a fuel0 toks fuel, scalars b -> scalars near -> scalars next -> scalars a -> Exists w_settles_left near -> Exists w_settles next ->
  length (encode (near ++ next)) < fuel0 -> tokens phrases_api fuel0 (Phrases.FromBytes (encode (near ++ next))) = Ok toks -> boundary toks (length (encode near)) ->
  length (encode ((b ++ near) ++ next ++ a)) < fuel ->
  exists before after, tokens phrases_api fuel (Phrases.FromBytes (encode (b ++ near))) = Ok before
    /\ tokens phrases_api fuel (Phrases.FromBytes (encode (next ++ a))) = Ok after
    /\ tokens phrases_api fuel (Phrases.FromBytes (encode ((b ++ near) ++ next ++ a))) = Ok (before ++ after).
Proof.
  intros b near next a fuel0 toks fuel Sb Sn Sx Sa X Z Hf0 E B Hf. apply Exists_exists in X as (x & I & S). apply Exists_exists in Z as (z & J & S'). assert (NN : next <> []) by (some_in J).
  refine (cut_at (fun fuel d => tokens phrases_api fuel (Phrases.FromBytes d)) SpecWords.phrase_decides C08_phrases_are_tailored_words C48_phrases (b ++ near) (next ++ a) fuel _ _ _ Hf); [apply Forall_app; auto|apply Forall_app; auto|]. intros _ _.
  assert (K : SpecWords.phrase_decides near next Break) by (refine (stretch_break (fun fuel d => tokens phrases_api fuel (Phrases.FromBytes d)) SpecWords.phrase_decides C08_phrases_are_tailored_words near next fuel0 toks _ ltac:(some_in I) NN Hf0 E B); apply Forall_app; auto).
  pose proof (w_local SpecWords.phrase_letter [SpecWords.Phrasal] eq_refl [] b near x next z [] a Break I S J S') as L. rewrite app_nil_r in L. exact (L K).
Qed.
Print Assumptions C92_phrases.

(** Sentences: the same. *)
Theorem C92_sentences : forall b near next a fuel0 toks fuel, scalars b -> scalars near -> scalars next -> scalars a -> Exists s_settles_left near -> Exists s_settles_right next ->
  length (encode (near ++ next)) < fuel0 -> tokens sentences_api fuel0 (Sentences.FromBytes (encode (near ++ next))) = Ok toks -> boundary toks (length (encode near)) ->
  length (encode ((b ++ near) ++ next ++ a)) < fuel ->
  exists before after, tokens sentences_api fuel (Sentences.FromBytes (encode (b ++ near))) = Ok before
    /\ tokens sentences_api fuel (Sentences.FromBytes (encode (next ++ a))) = Ok after
    /\ tokens sentences_api fuel (Sentences.FromBytes (encode ((b ++ near) ++ next ++ a))) = Ok (before ++ after).
Proof.
  intros b near next a fuel0 toks fuel Sb Sn Sx Sa X Z Hf0 E B Hf. apply Exists_exists in X as (x & I & S). apply Exists_exists in Z as (z & J & S'). assert (NN : next <> []) by (some_in J).
  refine (cut_at (fun fuel d => tokens sentences_api fuel (Sentences.FromBytes d)) SpecSentences.sentence_decides C07_sentences_are_uax29 C48_sentences (b ++ near) (next ++ a) fuel _ _ _ Hf); [apply Forall_app; auto|apply Forall_app; auto|]. intros _ _.
  assert (K : SpecSentences.sentence_decides near next Break) by (refine (stretch_break (fun fuel d => tokens sentences_api fuel (Sentences.FromBytes d)) SpecSentences.sentence_decides C07_sentences_are_uax29 near next fuel0 toks _ ltac:(some_in I) NN Hf0 E B); apply Forall_app; auto).
  pose proof (s_local [] b near x next z [] a Break I S J S') as L. rewrite app_nil_r in L. exact (L K).
Qed.
Print Assumptions C92_sentences.

(** "k. " and "T" for sentences; "o," and " 3" for words. *)
Example C92_case : (Exists s_settles_left [107; 46; 32] /\ Exists s_settles_right [84]
  /\ tokens sentences_api 9 (Sentences.FromBytes (encode ([107; 46; 32] ++ [84]))) = Ok [encode [107; 46; 32]; encode [84]]
  /\ Exists w_settles_left [111; 44] /\ Exists w_settles [32; 51]
  /\ tokens words_api 9 (Words.FromBytes (encode ([111; 44] ++ [32; 51]))) = Ok ([[111]; [44]] ++ [[32]; [51]]))%N.
Proof.
  split; [apply Exists_cons_hd; unfold s_settles_left; vm_compute; intuition discriminate|].
  split; [apply Exists_cons_hd; vm_compute; intuition|]. split; [vm_compute; reflexivity|].
  split; [apply Exists_cons_hd; unfold w_settles_left, w_settles; vm_compute; intuition discriminate|].
  split; [apply Exists_cons_hd; unfold w_settles; vm_compute; intuition discriminate|]. vm_compute. reflexivity.
Qed.

(** Without a settling character the stretch alone does not tell: "'" and "b" come apart, but not after "a". *)
Theorem C92_stretch_refuted : exists b near next, scalars (b ++ near ++ next) /\ Exists w_settles next
  /\ tokens words_api 9 (Words.FromBytes (encode (near ++ next))) = Ok [encode near; encode next]
  /\ tokens words_api 9 (Words.FromBytes (encode (b ++ near ++ next))) = Ok [encode (b ++ near ++ next)].
Proof.
  exists [97]%N, [39]%N, [98]%N. split; [repeat (constructor; [unfold scalar; lia|]); constructor|].
  split; [apply Exists_cons_hd; unfold w_settles; vm_compute; intuition discriminate|]. split; vm_compute; reflexivity.
Qed.
Print Assumptions C92_stretch_refuted.
