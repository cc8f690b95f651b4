(** Facts about the four segmentations of well-formed text, used in PropText. *)
From Verif Require Import Base ListFacts Trie Engine EngineMore Lk LookupFacts TableFacts SpecUtf8 SpecIter SpecApi SpecRules SpecUcd SpecNest SpecText SpecWords RuleFacts WordFacts
  SegFacts Conform Drive ApiFacts ApiInst ConformApi UcdFacts NestFacts Lines.
From Verif Require SpecGraphemes SpecSentences GraphemesIter GraphemesConform GraphemesEngine GraphemesLines WordsIter WordsConform WordsEngine WordsLines
  SentencesConform SentencesEngine SentencesLines PhrasesConform PhrasesEngine PhrasesLines.
From Verif Require Graphemes Words Sentences Phrases TableGraphemes TableWords TableSentences TablePhrases.

(** ** Tokens are segments *)
Lemma g_segments : tokens_are_segments graphemes_api SpecGraphemes.grapheme_decides.
Proof.
  intros cps fuel Hs Hf. destruct (GraphemesConform.g_conform cps Hs) as (segs & Hc & Hseg). exists segs. split; [|exact Hseg].
  eapply (tokens_chop _ _ _ _ _ _ _ _ _ graphemes_api_ok); [exact Hf|]. cbn [fst snd].
  rewrite (chop_ext _ _ GraphemesIter.g_isplit_off). exact Hc.
Qed.
Lemma w_segments : tokens_are_segments words_api word_decides.
Proof.
  intros cps fuel Hs Hf. destruct (WordsConform.w_conform cps Hs) as (segs & Hc & Hseg). exists segs. split; [|exact Hseg].
  eapply (tokens_chop _ _ _ _ _ _ _ _ _ words_api_ok); [exact Hf|]. cbn [fst snd].
  rewrite (chop_eof _ _ (WordsIter.hot_path_agrees WordsConform.J0 eq_refl)). exact Hc.
Qed.
Lemma s_segments : tokens_are_segments sentences_api SpecSentences.sentence_decides.
Proof.
  intros cps fuel Hs Hf. destruct (SentencesConform.s_conform cps Hs) as (segs & Hc & Hseg). exists segs. split; [|exact Hseg].
  eapply (tokens_chop _ _ _ _ _ _ _ _ _ sentences_api_ok); [exact Hf|]. exact Hc.
Qed.
Lemma p_segments : tokens_are_segments phrases_api phrase_decides.
Proof.
  intros cps fuel Hs Hf. destruct (PhrasesConform.p_conform cps Hs) as (segs & Hc & Hseg). exists segs. split; [|exact Hseg].
  eapply (tokens_chop _ _ _ _ _ _ _ _ _ phrases_api_ok); [exact Hf|]. exact Hc.
Qed.

(** ** Tokens of well-formed text *)
Lemma segments_wf : forall A D, tokens_are_segments A D -> tokens_well_formed A.
Proof.
  intros A D H d fuel (cps & Hs & ->) Hf. destruct (H cps fuel Hs Hf) as (segs & HT & HC & _). exists (map encode segs). split; [exact HT|].
  subst cps. clear HT Hf H. induction segs as [|s segs IH]; [constructor|]. cbn [map concat] in *. apply Forall_app in Hs. destruct Hs as [H1 H2].
  constructor; [exists s; auto|apply IH; exact H2].
Qed.

(** ** Phrases and words *)
Lemma mono_on : forall p q o, (forall c, p c = true -> q c = true) -> on p o = true -> on q o = true.
Proof. intros p q [c|] H; cbn; auto. Qed.
Lemma AH_mono : forall c, spred (AHLetter (wc WB_ALetter)) c = true -> spred (AHLetter phrase_letter) c = true.
Proof.
  intros c. cbn [AHLetter spred]. unfold phrase_letter. intros H. apply orb_prop in H. destruct H as [->|H]; [reflexivity|].
  rewrite H. apply orb_true_r.
Qed.
Lemma dec2_mono : forall lx ll run y n, word_dec2 (wc WB_ALetter) [] lx ll run y n = Join -> word_dec2 phrase_letter [Phrasal] lx ll run y n = Join.
Proof.
  intros lx ll run y n H. unfold word_dec2 in *. cbv zeta in *.
  assert (MA : forall o, on (spred (AHLetter (wc WB_ALetter))) o = true -> on (spred (AHLetter phrase_letter)) o = true)
    by (intros o; apply mono_on; exact AH_mono).
  assert (M4 : forall o, on (spred (Alt (AHLetter (wc WB_ALetter)) (Alt Numeric (Alt Katakana ExtendNumLet)))) o = true ->
                         on (spred (Alt (AHLetter phrase_letter) (Alt Numeric (Alt Katakana ExtendNumLet)))) o = true).
  { intros o. apply mono_on. intros c. change (spred (Alt ?a ?b) c) with (spred a c || spred b c).
    intros E. apply orb_prop in E. destruct E as [E|E]; [rewrite (AH_mono c E); reflexivity|]. rewrite E. apply orb_true_r. }
  assert (M3 : spred (Alt (AHLetter (wc WB_ALetter)) (Alt Numeric Katakana)) y = true -> spred (Alt (AHLetter phrase_letter) (Alt Numeric Katakana)) y = true).
  { change (spred (Alt ?a ?b) y) with (spred a y || spred b y).
    intros E. apply orb_prop in E. destruct E as [E|E]; [rewrite (AH_mono y E); reflexivity|]. rewrite E. apply orb_true_r. }
  pose proof (AH_mono y) as MY.
  assert (HB : forall (c c' : bool) (x x' : op), (c = true -> c' = true) -> (x = Join -> x' = Join) ->
     (if c then Join else x) = Join -> (if c' then Join else x') = Join).
  { intros c c' x x' H1 H2 HH. destruct c; [rewrite H1 by reflexivity; reflexivity|]. destruct c'; [reflexivity|]. auto. }
  revert H. do 15 (apply HB; [rewrite ?andb_true_iff; intuition auto|]).
  cbn [existsb]. discriminate.
Qed.
Lemma snoc_ex : forall (b : text), b <> [] -> exists b' x, b = b' ++ [x].
Proof. intros b H. destruct (exists_last H) as (b' & x & E). eauto. Qed.
Lemma phrase_word : forall b a, b <> [] -> a <> [] -> phrase_decides b a Break -> word_decides b a Break.
Proof.
  intros b a Hb Ha H. destruct (snoc_ex b Hb) as (b' & x & ->). destruct a as [|y a]; [congruence|].
  pose proof (word_spec (wc WB_ALetter) [] eq_refl b' x y a) as HW. pose proof (word_spec phrase_letter [Phrasal] eq_refl b' x y a) as HP.
  cbn [map] in HW, HP. unfold phrase_decides, word_decides in *. pose proof (word_like_fun _ _ _ _ _ _ H HP) as E.
  destruct (word_dec (wc WB_ALetter) [] (wtrack (b' ++ [x])) y (after_red y a)) eqn:EW; [|exact HW].
  exfalso. unfold word_dec in *. destruct (word_dec1 (w_l (wtrack (b' ++ [x]))) y) as [o|].
  - congruence.
  - apply dec2_mono in EW. congruence.
Qed.

(** ** Line by line *)
Lemma utf8_ends : forall x, scalar x -> last (utf8 x) 0%N = 10%N -> x = 10%N.
Proof.
  intros x Hx H. unfold utf8 in H.
  destruct (x <? 0x80)%N; [exact H|]. exfalso.
  revert H. generalize (x mod 0x40)%N. intros m H.
  destruct (x <? 0x800)%N; [cbn [last] in H; lia|]. destruct (x <? 0x10000)%N; cbn [last] in H; lia.
Qed.
Lemma wf_line : forall a, well_formed (a ++ [10%N]) -> exists cps, scalars cps /\ a ++ [10%N] = encode cps /\ last_char cps = Some 10%N.
Proof.
  intros a (cps & Hs & E). exists cps. repeat split; auto. destruct cps as [|x cps _] using rev_ind.
  - destruct a; discriminate.
  - rewrite last_char_snoc. f_equal. apply Forall_app in Hs. destruct Hs as [_ Hs]. apply utf8_ends; [exact (Forall_inv Hs)|].
    rewrite encode_app in E. apply (f_equal (fun l => last l 0%N)) in E. rewrite last_last in E. rewrite E. cbn [encode map concat]. rewrite app_nil_r.
    destruct (utf8_nonnil x) as (u & s & Eu). rewrite Eu. clear. generalize (encode cps). intros l. induction l as [|z l IH]; [reflexivity|].
    cbn [app]. rewrite IH. destruct (l ++ u :: s) eqn:E; [destruct l; discriminate|reflexivity].
Qed.

Lemma lines_api : forall A K data pos start kof (f : K -> splitfun) newK cfgK, api_ok A data pos start kof f newK cfgK ->
  forall g, split_ok g -> (forall d, f newK d true = g d true) ->
  (forall a b la lb n, scalars a -> last_char a = Some 10%N -> whole_start b ->
    chop g (S (length (encode a))) (encode a) = Ok la -> chop g (S (length b)) b = Ok lb -> length (encode a ++ b) < n ->
    chop g n (encode a ++ b) = Ok (la ++ lb)) ->
  line_by_line A.
Proof.
  intros A K data pos start kof f newK cfgK AO g OK HG HL a b fuel Ha Hb Hf.
  destruct (wf_line a Ha) as (cps & Hs & E & Hl). rewrite E in *.
  destruct (chop_total g OK (S (length (encode cps))) (encode cps) ltac:(lia)) as (la & La & _).
  destruct (chop_total g OK (S (length b)) b ltac:(lia)) as (lb & Lb & _).
  exists la, lb. rewrite app_length in Hf.
  split; [eapply (tokens_chop _ _ _ _ _ _ _ _ _ AO); [lia|]; rewrite (chop_eof _ _ HG); exact La|].
  split; [eapply (tokens_chop _ _ _ _ _ _ _ _ _ AO); [lia|]; rewrite (chop_eof _ _ HG); exact Lb|].
  eapply (tokens_chop _ _ _ _ _ _ _ _ _ AO); [rewrite app_length; lia|]. rewrite (chop_eof _ _ HG). apply HL; auto.
Qed.

Lemma g_lines_api : line_by_line graphemes_api.
Proof.
  apply (lines_api _ _ _ _ _ _ _ _ _ graphemes_api_ok Graphemes.splitFunc GraphemesEngine.g_split_ok).
  - intros d. apply GraphemesIter.g_isplit_off.
  - intros a b la lb n Hs Ha Hb. apply GraphemesLines.g_lines; auto. destruct b as [|c s]; [left; reflexivity|right].
    destruct (lookup_spec _ _ _ g_tables_ok c s) as (v & w & H1 & _ & _ & _ & H2 & _). exists v, w. split; [exact H1|].
    intros ->. destruct (H2 eq_refl) as [_ H3]. unfold whole_start in Hb. change (announced c) with (need c) in Hb. lia.
Qed.
Lemma w_lines_api : line_by_line words_api.
Proof.
  apply (lines_api _ _ _ _ _ _ _ _ _ words_api_ok _ (WordsEngine.w_split_ok WordsConform.J0)).
  - exact (WordsIter.hot_path_agrees WordsConform.J0 eq_refl).
  - intros a b la lb n Hs Ha Hb. apply WordsLines.w_lines; auto. destruct b as [|c s]; [left; reflexivity|right].
    destruct (lookup_spec _ _ _ w_tables_ok c s) as (v & w & H1 & _ & _ & _ & H2 & _).
    change (lookup _ _ (c :: s)) with (TableWords.words_lookup (c :: s)) in H1.
    assert (Hw : w <> 0). { intros ->. destruct (H2 eq_refl) as [_ H3]. unfold whole_start in Hb. change (announced c) with (need c) in Hb. lia. }
    change (e_lk (WordsEngine.WE WordsConform.J0)) with (WordsEngine.lkM WordsConform.J0). unfold WordsEngine.lkM. rewrite H1. cbn [bind].
    rewrite (proj2 (Nat.eqb_neq _ _) Hw). eauto.
Qed.
Lemma s_lines_api : line_by_line sentences_api.
Proof.
  apply (lines_api _ _ _ _ _ _ _ _ _ sentences_api_ok Sentences.splitFunc SentencesEngine.s_split_ok).
  - reflexivity.
  - intros a b la lb n Hs Ha Hb. apply SentencesLines.s_lines; auto. destruct b as [|c s]; [left; reflexivity|right].
    destruct (lookup_spec _ _ _ s_tables_ok c s) as (v & w & H1 & _ & _ & _ & H2 & _). exists v, w. split; [exact H1|].
    intros ->. destruct (H2 eq_refl) as [_ H3]. unfold whole_start in Hb. change (announced c) with (need c) in Hb. lia.
Qed.
Lemma p_lines_api : line_by_line phrases_api.
Proof.
  apply (lines_api _ _ _ _ _ _ _ _ _ phrases_api_ok Phrases.splitFunc PhrasesEngine.p_split_ok).
  - reflexivity.
  - intros a b la lb n Hs Ha Hb. apply PhrasesLines.p_lines; auto. destruct b as [|c s]; [left; reflexivity|right].
    destruct (lookup_spec _ _ _ p_tables_ok c s) as (v & w & H1 & _ & _ & _ & H2 & _). exists v, w. split; [exact H1|].
    intros ->. destruct (H2 eq_refl) as [_ H3]. unfold whole_start in Hb. change (announced c) with (need c) in Hb. lia.
Qed.

(** ** Line ends *)
Section LineEnds.
  Variables cr lf x y : re.
  Hypothesis S1 : is_single cr = true. Hypothesis S2 : is_single lf = true. Hypothesis S3 : is_single x = true. Hypothesis S4 : is_single y = true.
  Hypothesis CR13 : forall c, spred cr c = true <-> c = 13%N.
  Hypothesis LF10 : spred lf 10 = true.
  Hypothesis X10 : spred x 10 = true.
  Hypothesis Y10 : spred y 10 = true.
  Lemma ends_snoc : forall r, is_single r = true -> forall b c, ends_with r (b ++ [c]) <-> spred r c = true.
  Proof. intros r Hr b c. destruct (raw_last2 b c) as (ll & H). apply (ends_last r Hr _ _ _ H). Qed.
  Lemma le_crlf : forall rs b a, says (b ++ [13%N]) (10%N :: a) (Rule (Suffix cr) Join lf :: rs) (Some Join).
  Proof.
    intros rs b a. apply (says_this (b ++ [13%N]) (10%N :: a) (Rule (Suffix cr) Join lf)). split; cbn [r_left r_right left_applies].
    - apply ends_snoc; [exact S1|]. apply CR13. reflexivity.
    - apply starts_first; [exact S2|exact LF10].
  Qed.
  Lemma le_after : forall rs b a, says (b ++ [10%N]) a (Rule (Suffix cr) Join lf :: Rule (Suffix x) Break Any :: rs) (Some Break).
  Proof.
    intros rs b a. apply says_next.
    - intros [H _]. cbn [r_left left_applies] in H. apply (ends_snoc _ S1) in H. apply CR13 in H. discriminate.
    - apply (says_this (b ++ [10%N]) a (Rule (Suffix x) Break Any)). split; cbn [r_left r_right left_applies].
      + apply ends_snoc; [exact S3|exact X10].
      + exists [], a. split; [reflexivity|constructor].
  Qed.
  Lemma le_before : forall rs b c a, c <> 13%N ->
    says (b ++ [c]) (10%N :: a) (Rule (Suffix cr) Join lf :: Rule (Suffix x) Break Any :: Rule (Suffix Any) Break y :: rs) (Some Break).
  Proof.
    intros rs b c a Hc. apply says_next.
    { intros [H _]. cbn [r_left left_applies] in H. apply (ends_snoc _ S1) in H. apply CR13 in H. contradiction. }
    destruct (spred x c) eqn:E.
    - apply (says_this (b ++ [c]) (10%N :: a) (Rule (Suffix x) Break Any)). split; cbn [r_left r_right left_applies].
      + apply ends_snoc; [exact S3|exact E].
      + exists [], (10%N :: a). split; [reflexivity|constructor].
    - apply says_next.
      { intros [H _]. cbn [r_left left_applies] in H. apply (ends_snoc _ S3) in H. congruence. }
      apply (says_this (b ++ [c]) (10%N :: a) (Rule (Suffix Any) Break y)). split; cbn [r_left r_right left_applies].
      + exists (b ++ [c]), []. split; [rewrite app_nil_r; reflexivity|constructor].
      + apply starts_first; [exact S4|exact Y10].
  Qed.
End LineEnds.

(** Only U+000D has the class CR. *)
Lemma range_only : forall (A : Type) (eqb : A -> A -> bool) (dflt v : A) (t : list (N * N * A)) (k : N),
  eqb dflt v = false -> forallb (fun e => negb (eqb (snd e) v) || ((fst (fst e) =? k) && (snd (fst e) =? k)))%N t = true ->
  forall c, eqb (range_value dflt t c) v = true -> c = k.
Proof.
  intros A eqb dflt v t k Hd Ht c. induction t as [|[[lo hi] w] t IH]; cbn [range_value]; [congruence|].
  cbn [forallb fst snd] in Ht. apply andb_prop in Ht. destruct Ht as [H1 H2].
  destruct ((lo <=? c) && (c <=? hi))%N eqn:E; [|apply IH; exact H2].
  intros Hv. rewrite Hv in H1. cbn [negb orb] in H1. apply andb_prop in H1, E. rewrite !N.eqb_eq in H1. rewrite !N.leb_le in E. lia.
Qed.
Lemma g_cr : forall c, spred SpecGraphemes.CR c = true <-> c = 13%N.
Proof. intros c. split; [|intros ->; vm_compute; reflexivity]. apply (range_only _ gcb_beq); vm_compute; reflexivity. Qed.
Lemma w_cr : forall c, spred SpecWords.CR c = true <-> c = 13%N.
Proof. intros c. split; [|intros ->; vm_compute; reflexivity]. apply (range_only _ wb_beq); vm_compute; reflexivity. Qed.
Lemma s_cr : forall c, spred SpecSentences.CR c = true <-> c = 13%N.
Proof. intros c. split; [|intros ->; vm_compute; reflexivity]. apply (range_only _ sb_beq); vm_compute; reflexivity. Qed.

Definition joins_crlf (D : text -> text -> op -> Prop) : Prop := forall b a, D (b ++ [13%N]) (10%N :: a) Join.
Definition breaks_after (D : text -> text -> op -> Prop) : Prop := forall b a, D (b ++ [10%N]) a Break.
Definition breaks_before (D : text -> text -> op -> Prop) : Prop := forall b c a, c <> 13%N -> D (b ++ [c]) (10%N :: a) Break.
Lemma g_crlf : joins_crlf SpecGraphemes.grapheme_decides. Proof. intros b a. apply le_crlf; try reflexivity; exact g_cr. Qed.
Lemma g_after : breaks_after SpecGraphemes.grapheme_decides. Proof. intros b a. apply le_after; try reflexivity; exact g_cr. Qed.
Lemma g_before : breaks_before SpecGraphemes.grapheme_decides. Proof. intros b c a H. apply le_before; try reflexivity; auto; exact g_cr. Qed.
Lemma w_crlf : forall al mr, joins_crlf (word_like al mr). Proof. intros al mr b a. left. apply le_crlf; try reflexivity; exact w_cr. Qed.
Lemma w_after : forall al mr, breaks_after (word_like al mr). Proof. intros al mr b a. left. apply le_after; try reflexivity; exact w_cr. Qed.
Lemma w_before : forall al mr, breaks_before (word_like al mr). Proof. intros al mr b c a H. left. apply le_before; try reflexivity; auto; exact w_cr. Qed.
Lemma s_crlf : joins_crlf SpecSentences.sentence_decides. Proof. intros b a. left. apply le_crlf; try reflexivity; exact s_cr. Qed.
Lemma s_after : breaks_after SpecSentences.sentence_decides. Proof. intros b a. left. apply le_after; try reflexivity; exact s_cr. Qed.

(** What a client sees. *)
Lemma enc_snoc1 : forall b c, (c < 128)%N -> length (encode (b ++ [c])) = length (encode b) + 1.
Proof. intros b c H. rewrite encode_app, app_length. f_equal. cbn [encode map concat]. rewrite app_nil_r. unfold utf8. rewrite (proj2 (N.ltb_lt _ _)); [reflexivity|exact H]. Qed.

Lemma api_crlf : forall A D, tokens_are_segments A D -> joins_crlf D -> (forall b a, D b a Break -> D b a Join -> False) -> crlf_kept A.
Proof.
  intros A D H J X b a fuel Hs Hf. destruct (H _ fuel Hs Hf) as (segs & HT & HS). exists (map encode segs). split; [exact HT|].
  rewrite <- (enc_snoc1 b 13) by lia. intros HB. apply (seg_boundary _ _ _ HS (b ++ [13%N]) (10%N :: a)) in HB.
  - eapply X; [exact HB|apply J].
  - destruct b; discriminate.
  - discriminate.
  - rewrite <- app_assoc. reflexivity.
Qed.
Lemma api_after : forall A D, tokens_are_segments A D -> breaks_after D -> lf_breaks_after A.
Proof.
  intros A D H J b a fuel Hs Hf. destruct (H _ fuel Hs Hf) as (segs & HT & HS). exists (map encode segs). split; [exact HT|].
  rewrite <- (enc_snoc1 b 10) by lia. destruct a as [|y a].
  - exists (map encode segs), []. rewrite app_nil_r. split; [reflexivity|]. rewrite concat_encode. destruct HS as (-> & _). reflexivity.
  - apply (seg_boundary _ _ _ HS (b ++ [10%N]) (y :: a)).
    + destruct b; discriminate.
    + discriminate.
    + rewrite <- app_assoc. reflexivity.
    + apply J.
Qed.
Lemma api_before : forall A D, tokens_are_segments A D -> breaks_before D -> lf_breaks_before A.
Proof.
  intros A D H J b a fuel Hs Hf Hb. destruct (H _ fuel Hs Hf) as (segs & HT & HS). exists (map encode segs). split; [exact HT|].
  destruct b as [|z b].
  - exists [], (map encode segs). auto.
  - apply (seg_boundary _ _ _ HS (z :: b) (10%N :: a)); [discriminate|discriminate|reflexivity|].
    destruct (snoc_ex (z :: b) ltac:(discriminate)) as (b' & c & E). rewrite E in *. rewrite last_char_snoc in Hb. apply J. congruence.
Qed.
