(** C84: emoji are never torn apart, and a text of emoji is cut into exactly these emoji. *)
From Verif Require Import Base SpecUtf8 SpecIter SpecApi SpecUcd SpecRules SpecGraphemes SpecWords SpecNest SpecEmoji RuleFacts SegFacts NestFacts ApiInst PropConform EmojiFacts EmojiGraphemes EmojiWords.
From Verif Require Graphemes Words Phrases.

(** Any number of emoji in a row, of any length: the graphemes are the emoji. *)
Theorem C84_graphemes : forall es fuel, Forall emoji es -> length (encode (concat es)) < fuel ->
  tokens graphemes_api fuel (Graphemes.FromBytes (encode (concat es))) = Ok (map encode es).
Proof.
  intros es fuel F Hf. destruct (C05_graphemes_are_uax29 (concat es) fuel (scalars_concat_emoji es F) Hf) as (l & E & _ & U). rewrite E, <- (U es (emoji_segments es F)). reflexivity.
Qed.
Print Assumptions C84_graphemes.
(** So are the words, for flags and for pictographs that are not letters. *)
Theorem C84_words : forall es fuel, Forall word_emoji es -> length (encode (concat es)) < fuel ->
  tokens words_api fuel (Words.FromBytes (encode (concat es))) = Ok (map encode es).
Proof.
  intros es fuel F Hf. destruct (C06_words_are_uax29 (concat es) fuel (scalars_words es F) Hf) as (l & E & _ & U). rewrite E, <- (U es (word_segments es F)). reflexivity.
Qed.
Print Assumptions C84_words.
(** Phrases keep all of them together. *)
Theorem C84_phrases : forall es fuel, Forall joined es -> es <> [] -> length (encode (concat es)) < fuel ->
  tokens phrases_api fuel (Phrases.FromBytes (encode (concat es))) = Ok [encode (concat es)].
Proof.
  intros es fuel F Ne Hf. destruct (C08_phrases_are_tailored_words (concat es) fuel (scalars_joined es F) Hf) as (l & E & _ & U). rewrite E, <- (U _ (phrase_segment es F Ne)). reflexivity.
Qed.
Print Assumptions C84_phrases.

(** Whatever stands before and after an emoji, there is no boundary inside it. A flag is only safe where no other regional indicator stands before. *)
Lemma kept : forall (D : text -> text -> op -> Prop) b e a segs, (forall b a : text, D b a Break -> D b a Join -> False) -> segmentation D (b ++ e ++ a) segs ->
  (forall e1 y e2, e = e1 ++ y :: e2 -> e1 <> [] -> D (b ++ e1) (y :: e2 ++ a) Join) -> kept_whole (map encode segs) b e.
Proof.
  intros D b e a segs X S J e1 e2 -> N1 N2 B. destruct e2 as [|y e2]; [contradiction|].
  apply (seg_boundary D _ segs S (b ++ e1) (y :: e2 ++ a)) in B; [|destruct b; [exact N1|discriminate]|discriminate|rewrite <- !app_assoc; reflexivity].
  exact (X _ _ B (J e1 y e2 eq_refl N1)).
Qed.
Lemma grapheme_excl : forall b a : text, grapheme_decides b a Break -> grapheme_decides b a Join -> False.
Proof. intros b a B J. pose proof (says_fun _ _ _ _ _ B J) as Q. discriminate Q. Qed.
Lemma scal3 : forall b e a, scalars b -> emoji e -> scalars a -> scalars (b ++ e ++ a).
Proof. intros b e a Hb He Ha. apply Forall_app. split; [exact Hb|]. apply Forall_app. split; [exact (emoji_scalars e He)|exact Ha]. Qed.
Theorem C84_graphemes_whole : forall b e a fuel, scalars b -> emoji e -> scalars a -> free_before b e -> length (encode (b ++ e ++ a)) < fuel ->
  exists l, tokens graphemes_api fuel (Graphemes.FromBytes (encode (b ++ e ++ a))) = Ok l /\ kept_whole l b e.
Proof.
  intros b e a fuel Hb He Ha Fr Hf. destruct (C05_graphemes_are_uax29 _ fuel (scal3 b e a Hb He Ha) Hf) as (segs & E & S & _). eexists. split; [exact E|].
  refine (kept _ b e a segs grapheme_excl S _). intros e1 y e2 -> N1. exact (emoji_whole b e1 y e2 a Hb He N1 Fr).
Qed.
Print Assumptions C84_graphemes_whole.
Theorem C84_words_whole : forall b e a fuel, scalars b -> emoji e -> scalars a -> free_before b e -> length (encode (b ++ e ++ a)) < fuel ->
  exists l, tokens words_api fuel (Words.FromBytes (encode (b ++ e ++ a))) = Ok l /\ kept_whole l b e.
Proof.
  intros b e a fuel Hb He Ha Fr Hf. destruct (C06_words_are_uax29 _ fuel (scal3 b e a Hb He Ha) Hf) as (segs & E & S & _). eexists. split; [exact E|].
  refine (kept _ b e a segs word_excl S _). intros e1 y e2 -> N1. exact (emoji_whole_w (wc WB_ALetter) [] eq_refl b e1 y e2 a Hb He N1 Fr).
Qed.
Print Assumptions C84_words_whole.
Theorem C84_phrases_whole : forall b e a fuel, scalars b -> emoji e -> scalars a -> free_before b e -> length (encode (b ++ e ++ a)) < fuel ->
  exists l, tokens phrases_api fuel (Phrases.FromBytes (encode (b ++ e ++ a))) = Ok l /\ kept_whole l b e.
Proof.
  intros b e a fuel Hb He Ha Fr Hf. destruct (C08_phrases_are_tailored_words _ fuel (scal3 b e a Hb He Ha) Hf) as (segs & E & S & _). eexists. split; [exact E|].
  refine (kept _ b e a segs phrase_excl S _). intros e1 y e2 -> N1. exact (emoji_whole_w phrase_letter [Phrasal] eq_refl b e1 y e2 a Hb He N1 Fr).
Qed.
Print Assumptions C84_phrases_whole.

Ltac pict := split; [unfold scalar; lia|vm_compute; reflexivity].
Ltac elem := constructor; [pict|repeat (constructor; [reflexivity|]); constructor].
(** A family of four, a thumb with a skin tone, two flags, the flag of Scotland with its tags, and a rainbow flag; then a keycap. *)
Definition sample : list text := [[0x1F468; 0x200D; 0x1F469; 0x200D; 0x1F467; 0x200D; 0x1F466]; [0x1F44D; 0x1F3FD]; [0x1F1EB; 0x1F1F7]; [0x1F1E9; 0x1F1EA];
  [0x1F3F4; 0xE0067; 0xE0062; 0xE0073; 0xE0063; 0xE0074; 0xE007F]; [0x1F3F3; 0xFE0F; 0x200D; 0x1F308]]%N.
Lemma sample_ok : Forall word_emoji sample.
Proof.
  assert (NL : forallb (fun c => negb (ExtPict c) || wb_beq (WB c) WB_Other) (concat sample) = true) by (vm_compute; reflexivity). rewrite forallb_forall in NL.
  assert (N : forall e, In e sample -> no_letter e).
  { intros e He c Hc Ec. specialize (NL c (proj2 (in_concat sample c) (ex_intro _ e (conj He Hc)))). rewrite Ec in NL. apply internal_wb_dec_bl. exact NL. }
  assert (A : forall p ms s, element (p :: ms) -> joined s -> joined (p :: ms ++ ZERO_WIDTH_JOINER :: s)) by (intros p ms s He Hs; exact (More (p :: ms) s He Hs)).
  apply Forall_forall. intros e He. pose proof (N e He) as Ne. unfold sample in He. cbn [In] in He. destruct He as [<-|[<-|[<-|[<-|[<-|[<-|[]]]]]]].
  - left. split; [|exact Ne]. refine (A _ [] _ _ _); [elem|]. refine (A _ [] _ _ _); [elem|]. refine (A _ [] _ _ _); [elem|]. apply Single. elem.
  - left. split; [|exact Ne]. apply Single. elem.
  - right. constructor; unfold letter_symbol; lia.
  - right. constructor; unfold letter_symbol; lia.
  - left. split; [|exact Ne]. apply Single. elem.
  - left. split; [|exact Ne]. refine (A _ [0xFE0F%N] _ _ _); [elem|]. apply Single. elem.
Qed.
Example C84_case : Forall word_emoji sample /\ Forall emoji (sample ++ [[0x31; 0xFE0F; 0x20E3]%N])
  /\ tokens graphemes_api 200 (Graphemes.FromBytes (encode (concat (sample ++ [[0x31; 0xFE0F; 0x20E3]%N])))) = Ok (map encode (sample ++ [[0x31; 0xFE0F; 0x20E3]%N]))
  /\ tokens words_api 200 (Words.FromBytes (encode (concat sample))) = Ok (map encode sample).
Proof.
  split; [exact sample_ok|]. split.
  { apply Forall_app. split; [apply Forall_impl with (2 := sample_ok); exact word_emoji_ok|]. constructor; [|constructor]. right. right. constructor; [left; lia|repeat (constructor; [reflexivity|]); constructor]. }
  split; vm_compute; reflexivity.
Qed.
(** "hi " before the flag of France *)
Example C84_whole_case : scalars [104; 105; 32]%N /\ free_before [104; 105; 32]%N [0x1F1EB; 0x1F1F7]%N /\ flag [0x1F1EB; 0x1F1F7]%N.
Proof.
  split; [repeat (constructor; [unfold scalar; lia|]); constructor|]. split; [intros _; repeat (constructor; [vm_compute; reflexivity|]); constructor|]. constructor; unfold letter_symbol; lia.
Qed.

(** Two keycaps are one word, and so are two pictographs that are letters (U+2139 twice). *)
Theorem C84_words_refuted : exists es es', Forall emoji es /\ Forall joined es' /\ length es = 2 /\ length es' = 2
  /\ tokens words_api 20 (Words.FromBytes (encode (concat es))) = Ok [encode (concat es)] /\ tokens words_api 20 (Words.FromBytes (encode (concat es'))) = Ok [encode (concat es')].
Proof.
  exists [[0x31; 0xFE0F; 0x20E3]; [0x32; 0xFE0F; 0x20E3]]%N, [[0x2139; 0xFE0F]; [0x2139; 0xFE0F]]%N.
  split; [repeat (constructor; [right; right; constructor; [left; lia|repeat (constructor; [reflexivity|]); constructor]|]); constructor|].
  split; [repeat (constructor; [apply Single; elem|]); constructor|]. repeat (split; [reflexivity|]). split; vm_compute; reflexivity.
Qed.
Print Assumptions C84_words_refuted.
(** A flag after a single regional indicator is torn apart, by graphemes and by words. *)
Theorem C84_flag_refuted : exists b e, scalars b /\ flag e /\
  tokens graphemes_api 20 (Graphemes.FromBytes (encode (b ++ e))) = Ok [encode (b ++ [hd 0%N e]); encode (tl e)] /\
  tokens words_api 20 (Words.FromBytes (encode (b ++ e))) = Ok [encode (b ++ [hd 0%N e]); encode (tl e)].
Proof.
  exists [0x1F1E6]%N, [0x1F1EB; 0x1F1F7]%N. split; [constructor; [unfold scalar; lia|constructor]|]. split; [constructor; unfold letter_symbol; lia|]. split; vm_compute; reflexivity.
Qed.
Print Assumptions C84_flag_refuted.
