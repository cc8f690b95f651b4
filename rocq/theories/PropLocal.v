(** C91: an edit does not move boundaries beyond a settling character. *)
From Verif Require Import Base ListFacts SpecUtf8 SpecIter SpecApi SpecRules SpecUcd SpecGraphemes SpecNest SpecLocal RuleFacts SegFacts NestFacts Conform ApiInst PropConform LocalFacts.
From Verif Require Graphemes Words Sentences Phrases SpecWords SpecSentences.

Lemma local : forall (T : nat -> bytes -> res (list bytes)) D,
  (forall cps fuel, scalars cps -> length (encode cps) < fuel -> exists segs, T fuel (encode cps) = Ok (map encode segs) /\ segmentation D cps segs) ->
  forall b b' near next a a' fuel fuel', scalars (b ++ near ++ next ++ a) -> scalars (b' ++ near ++ next ++ a') -> near <> [] -> next <> [] ->
  (forall c c' e e' o, D (c ++ near) (next ++ e) o -> D (c' ++ near) (next ++ e') o) ->
  length (encode (b ++ near ++ next ++ a)) < fuel -> length (encode (b' ++ near ++ next ++ a')) < fuel' ->
  exists toks toks', T fuel (encode (b ++ near ++ next ++ a)) = Ok toks /\ T fuel' (encode (b' ++ near ++ next ++ a')) = Ok toks'
    /\ (boundary toks (length (encode (b ++ near))) <-> boundary toks' (length (encode (b' ++ near)))).
Proof.
  intros T D C b b' near next a a' fuel fuel' Hs Hs' N1 N2 L Hf Hf'. destruct (C _ _ Hs Hf) as (segs & E & G). destruct (C _ _ Hs' Hf') as (segs' & E' & G').
  exists (map encode segs), (map encode segs'). split; [exact E|]. split; [exact E'|].
  assert (M : forall u v : text, v <> [] -> u ++ v <> []) by (intros u v H K; apply app_eq_nil in K as [_ K]; contradiction).
  assert (M' : forall u v : text, u <> [] -> u ++ v <> []) by (intros u v H K; apply app_eq_nil in K as [K _]; contradiction).
  rewrite (seg_boundary D _ segs G (b ++ near) (next ++ a) (M _ _ N1) (M' _ _ N2)) by (rewrite <- !app_assoc; reflexivity).
  rewrite (seg_boundary D _ segs' G' (b' ++ near) (next ++ a') (M _ _ N1) (M' _ _ N2)) by (rewrite <- !app_assoc; reflexivity).
  split; apply L.
Qed.
Ltac some_in I := intros K; rewrite K in I; destruct I.

(** Graphemes: whether there is a boundary between [near] and [next] does not depend on the text further away, if [near] holds a character that is not a mark, a joiner or a flag letter. *)
Theorem C91_graphemes : forall b b' near next a a' fuel fuel', scalars (b ++ near ++ next ++ a) -> scalars (b' ++ near ++ next ++ a') ->
  Exists g_settles near -> next <> [] ->
  length (encode (b ++ near ++ next ++ a)) < fuel -> length (encode (b' ++ near ++ next ++ a')) < fuel' ->
  exists toks toks', tokens graphemes_api fuel (Graphemes.FromBytes (encode (b ++ near ++ next ++ a))) = Ok toks
    /\ tokens graphemes_api fuel' (Graphemes.FromBytes (encode (b' ++ near ++ next ++ a'))) = Ok toks'
    /\ (boundary toks (length (encode (b ++ near))) <-> boundary toks' (length (encode (b' ++ near)))).
Proof.
  intros b b' near next a a' fuel fuel' Hs Hs' X N2 Hf Hf'. apply Exists_exists in X as (x & I & S).
  assert (Sx : scalar x). { assert (F := Hs). unfold scalars in F. rewrite Forall_forall in F. apply F. apply in_or_app. right. apply in_or_app. left. exact I. }
  refine (local (fun fuel d => tokens graphemes_api fuel (Graphemes.FromBytes d)) grapheme_decides _ b b' near next a a' fuel fuel' Hs Hs' ltac:(some_in I) N2 _ Hf Hf').
  - intros cps f H1 H2. destruct (C05_graphemes_are_uax29 cps f H1 H2) as (segs & E & G & _). exists segs. auto.
  - intros c c' e e' o. destruct next as [|y n]; [contradiction|]. cbn [app]. apply (g_local c c' near x (n ++ e) (n ++ e') y o Sx I S).
Qed.
Print Assumptions C91_graphemes.

(** Words: ... if [near] holds a character that is not a mark, a flag letter or punctuation that may stand inside a word or number, and [next] one that is not a mark or such punctuation. *)
Theorem C91_words : forall b b' near next a a' fuel fuel', scalars (b ++ near ++ next ++ a) -> scalars (b' ++ near ++ next ++ a') ->
  Exists w_settles_left near -> Exists w_settles next ->
  length (encode (b ++ near ++ next ++ a)) < fuel -> length (encode (b' ++ near ++ next ++ a')) < fuel' ->
  exists toks toks', tokens words_api fuel (Words.FromBytes (encode (b ++ near ++ next ++ a))) = Ok toks
    /\ tokens words_api fuel' (Words.FromBytes (encode (b' ++ near ++ next ++ a'))) = Ok toks'
    /\ (boundary toks (length (encode (b ++ near))) <-> boundary toks' (length (encode (b' ++ near)))).
Proof.
  intros b b' near next a a' fuel fuel' Hs Hs' X Z Hf Hf'. apply Exists_exists in X as (x & I & S). apply Exists_exists in Z as (z & J & S').
  refine (local (fun fuel d => tokens words_api fuel (Words.FromBytes d)) SpecWords.word_decides _ b b' near next a a' fuel fuel' Hs Hs' ltac:(some_in I) ltac:(some_in J) _ Hf Hf').
  - intros cps f H1 H2. destruct (C06_words_are_uax29 cps f H1 H2) as (segs & E & G & _). exists segs. auto.
  - intros c c' e e' o. apply (w_local (SpecWords.wc WB_ALetter) [] eq_refl c c' near x next z e e' o I S J S').
Qed.
Print Assumptions C91_words.

(** Phrases: as for words. *)
Theorem C91_phrases : forall b b' near next a a' fuel fuel', scalars (b ++ near ++ next ++ a) -> scalars (b' ++ near ++ next ++ a') ->
  Exists w_settles_left near -> Exists w_settles next ->
  length (encode (b ++ near ++ next ++ a)) < fuel -> length (encode (b' ++ near ++ next ++ a')) < fuel' ->
  exists toks toks', tokens phrases_api fuel (Phrases.FromBytes (encode (b ++ near ++ next ++ a))) = Ok toks
    /\ tokens phrases_api fuel' (Phrases.FromBytes (encode (b' ++ near ++ next ++ a'))) = Ok toks'
    /\ (boundary toks (length (encode (b ++ near))) <-> boundary toks' (length (encode (b' ++ near)))).
Proof.
  intros b b' near next a a' fuel fuel' Hs Hs' X Z Hf Hf'. apply Exists_exists in X as (x & I & S). apply Exists_exists in Z as (z & J & S').
  refine (local (fun fuel d => tokens phrases_api fuel (Phrases.FromBytes d)) SpecWords.phrase_decides _ b b' near next a a' fuel fuel' Hs Hs' ltac:(some_in I) ltac:(some_in J) _ Hf Hf').
  - intros cps f H1 H2. destruct (C08_phrases_are_tailored_words cps f H1 H2) as (segs & E & G & _). exists segs. auto.
  - intros c c' e e' o. apply (w_local SpecWords.phrase_letter [SpecWords.Phrasal] eq_refl c c' near x next z e e' o I S J S').
Qed.
Print Assumptions C91_phrases.

(** Sentences: ... if [near] holds a character that is not a mark, a full stop, a closing character or a space, and [next] a letter, a terminator or a separator. *)
Theorem C91_sentences : forall b b' near next a a' fuel fuel', scalars (b ++ near ++ next ++ a) -> scalars (b' ++ near ++ next ++ a') ->
  Exists s_settles_left near -> Exists s_settles_right next ->
  length (encode (b ++ near ++ next ++ a)) < fuel -> length (encode (b' ++ near ++ next ++ a')) < fuel' ->
  exists toks toks', tokens sentences_api fuel (Sentences.FromBytes (encode (b ++ near ++ next ++ a))) = Ok toks
    /\ tokens sentences_api fuel' (Sentences.FromBytes (encode (b' ++ near ++ next ++ a'))) = Ok toks'
    /\ (boundary toks (length (encode (b ++ near))) <-> boundary toks' (length (encode (b' ++ near)))).
Proof.
  intros b b' near next a a' fuel fuel' Hs Hs' X Z Hf Hf'. apply Exists_exists in X as (x & I & S). apply Exists_exists in Z as (z & J & S').
  refine (local (fun fuel d => tokens sentences_api fuel (Sentences.FromBytes d)) SpecSentences.sentence_decides _ b b' near next a a' fuel fuel' Hs Hs' ltac:(some_in I) ltac:(some_in J) _ Hf Hf').
  - intros cps f H1 H2. destruct (C07_sentences_are_uax29 cps f H1 H2) as (segs & E & G & _). exists segs. auto.
  - intros c c' e e' o. apply (s_local c c' near x next z e e' o I S J S').
Qed.
Print Assumptions C91_sentences.

(** "n'" and "t 3": the letter and the letter settle it; "a. (" and "1 b" for sentences; "a" and a mark for graphemes. *)
Example C91_case : Exists g_settles [97; 0x301]%N /\ Exists w_settles_left [110; 39]%N /\ Exists w_settles [39; 116]%N /\ Exists s_settles_left [97; 46; 32]%N /\ Exists s_settles_right [40; 49; 32; 98]%N.
Proof.
  split; [apply Exists_cons_hd; unfold g_settles; vm_compute; intuition discriminate|].
  split; [apply Exists_cons_hd; unfold w_settles_left, w_settles; vm_compute; intuition discriminate|].
  split; [apply Exists_cons_tl, Exists_cons_hd; unfold w_settles; vm_compute; intuition discriminate|].
  split; [apply Exists_cons_hd; unfold s_settles_left; vm_compute; intuition discriminate|].
  do 3 apply Exists_cons_tl. apply Exists_cons_hd. vm_compute. intuition.
Qed.

(** One character on each side is not enough in general: the boundary between "'" and "b" depends on what stands before "'", the one between "a" and "'" on what stands after it; the boundary of flag letters depends
    on how many there are before; and the end of a sentence on a letter further to the right. *)
Definition cut_after (T : nat -> bytes -> res (list bytes)) (b a : text) : Prop := T 60 (encode (b ++ a)) = Ok [encode b; encode a].
Definition whole (T : nat -> bytes -> res (list bytes)) (b a : text) : Prop := T 60 (encode (b ++ a)) = Ok [encode (b ++ a)].
Theorem C91_near_refuted :
  let W fuel d := tokens words_api fuel (Words.FromBytes d) in let S fuel d := tokens sentences_api fuel (Sentences.FromBytes d) in
  let G fuel d := tokens graphemes_api fuel (Graphemes.FromBytes d) in
  (whole W [97; 39] [98] /\ cut_after W [39] [98])%N
  /\ (whole W [97] [39; 98] /\ cut_after W [97] [39])%N
  /\ (whole G [0x1F1E6] [0x1F1E6] /\ G 60%nat (encode [0x1F1E6; 0x1F1E6; 0x1F1E6]) = Ok [encode [0x1F1E6; 0x1F1E6]; encode [0x1F1E6]])%N
  /\ (whole S [65; 46; 32] [49; 44; 49; 32; 49; 98] /\ cut_after S [65; 46; 32] [49; 44; 49; 32; 49; 66])%N.
Proof.
  cbv zeta. unfold whole, cut_after. split; [split; vm_compute; reflexivity|]. split; [split; vm_compute; reflexivity|]. split; [split; vm_compute; reflexivity|].
  split; vm_compute; reflexivity.
Qed.
Print Assumptions C91_near_refuted.
