(** C73: canonically equivalent texts are cut alike. *)
From Verif Require Import Base ListFacts SpecUtf8 SpecIter SpecApi SpecUcd SpecRules SegFacts ApiInst ConformApi TextFacts SpecHangul HangulRules PropHangul
  SpecSame SameFacts SameRules SpecMarks MarkFacts MarkRules SpecDecomp SpecCanon CanonSeg CanonRules CanonTables.
From Verif Require SpecGraphemes SpecWords SpecSentences WordsConform PhrasesConform SentencesConform.

(** As many tokens in the one text as in the other, and each token is canonically equivalent to the one in its place. *)
Definition cut_alike (A : api) (same : list N -> list N -> Prop) : Prop := forall t t' fuel, scalars t -> scalars t' -> same t t' -> length (encode t) < fuel -> length (encode t') < fuel ->
  exists segs segs', tokens A fuel (a_new A (encode t)) = Ok (map encode segs) /\ tokens A fuel (a_new A (encode t')) = Ok (map encode segs')
    /\ concat segs = t /\ concat segs' = t' /\ Forall2 same segs segs'.

Lemma canon_in : forall but t t' p q, canon but t t' -> canon but (p ++ t ++ q) (p ++ t' ++ q).
Proof.
  intros but t t' p q C. induction C as [t|t u C IH|t u v C1 IH1 C2 IH2|u c d v I N|u c v H|u a b v H].
  - apply canon_refl.
  - apply canon_sym. exact IH.
  - exact (canon_trans _ _ _ _ IH1 IH2).
  - pose proof (canon_mapping but (p ++ u) c d (v ++ q) I N) as X. rewrite <- !app_assoc in *. exact X.
  - pose proof (canon_hangul but (p ++ u) c (v ++ q) H) as X. rewrite <- !app_assoc in *. exact X.
  - pose proof (canon_order but (p ++ u) a b (v ++ q) H) as X. rewrite <- !app_assoc in *. exact X.
Qed.
Lemma canon_decompose : forall but t, canon but t (decompose t).
Proof.
  intros but. induction t as [|c t IH]; [apply canon_refl|]. unfold decompose in *. cbn [flat_map]. apply (canon_trans _ _ (c :: flat_map jamo t)).
  - pose proof (canon_in but _ _ [c] [] IH) as X. rewrite !app_nil_r in X. exact X.
  - destruct (syllable c) eqn:E; [|unfold jamo at 2; rewrite E; apply canon_refl]. exact (canon_hangul but [] c (flat_map jamo t) E).
Qed.
Lemma jamo_small : forall c, syllable c = true -> Forall (fun j => (j < 0x1200)%N) (jamo c).
Proof.
  intros c E. unfold jamo. rewrite E. unfold syllable in E. apply andb_prop in E. destruct E as (E1 & E2). apply N.leb_le in E1. apply N.ltb_lt in E2. cbv zeta.
  assert (L : ((c - SBase) / NCount < 19)%N) by (apply N.div_lt_upper_bound; [discriminate|change (NCount * 19)%N with SCount; lia]).
  assert (V : (((c - SBase) mod NCount) / TCount < 21)%N) by (apply N.div_lt_upper_bound; [discriminate|change (TCount * 21)%N with NCount; apply N.mod_lt; discriminate]).
  assert (T : ((c - SBase) mod TCount < 28)%N) by (apply N.mod_lt; discriminate).
  revert L V T. generalize ((c - SBase) / NCount)%N, (((c - SBase) mod NCount) / TCount)%N, ((c - SBase) mod TCount)%N. intros l v t L V T.
  destruct (_ =? _)%N; repeat (first [apply Forall_nil|apply Forall_cons]); unfold LBase, VBase, TBase; lia.
Qed.
Lemma decompose_jamo : forall c, syllable c = true -> decompose (jamo c) = jamo c.
Proof.
  intros c H. pose proof (jamo_small c H) as F. induction F as [|j l Hj F IH]; [reflexivity|]. unfold decompose in *. cbn [flat_map]. rewrite IH.
  assert (E : syllable j = false) by (unfold syllable, SBase; destruct (N.leb_spec 0xAC00 j); [lia|reflexivity]). unfold jamo. rewrite E. reflexivity.
Qed.
Lemma decompose_app : forall a b, decompose (a ++ b) = decompose a ++ decompose b.
Proof. intros. apply flat_map_app. Qed.
Lemma syllable_scalar : forall c, syllable c = true -> scalar c.
Proof. intros c E. unfold syllable in E. apply andb_prop in E. destruct E as (E1 & E2). apply N.leb_le in E1. apply N.ltb_lt in E2. unfold SBase in *. change SCount with 11172%N in E2. left. lia. Qed.

(** Canonically equivalent texts are both made of scalar values, or neither is. *)
Lemma canon_scalars : forall but t t', canon but t t' -> scalars t <-> scalars t'.
Proof.
  intros but t t' C. unfold scalars. induction C as [t|t u C IH|t u v C1 IH1 C2 IH2|u c d v I N|u c v H|u a b v H]; [reflexivity|symmetry; exact IH|etransitivity; eassumption| | |].
  - destruct (mapping_facts c d I) as (a & ms & -> & Sc & Sa & _ & _ & M & _). rewrite !Forall_app.
    assert (X : Forall scalar (a :: ms)) by (apply Forall_cons; [exact Sa|]; eapply Forall_impl; [|exact M]; intros m K; exact (mf_scalar m K)).
    assert (Y : Forall scalar [c]) by (apply Forall_cons; [exact Sc|apply Forall_nil]). tauto.
  - pose proof (syllable_scalar c H) as Sc. pose proof (proj1 (jamo_scalar c Sc)) as X. unfold scalars in X. rewrite !Forall_app. assert (Y : Forall scalar [c]) by (apply Forall_cons; [exact Sc|apply Forall_nil]). tauto.
  - pose proof (ccc_facts a ltac:(lia)) as Ha. pose proof (ccc_facts b ltac:(lia)) as Hb. rewrite !Forall_app.
    assert (X : Forall scalar [a; b]) by (repeat (first [apply Forall_nil|apply Forall_cons]); apply cf_scalar; assumption). assert (Y : Forall scalar [b; a]) by (repeat (first [apply Forall_nil|apply Forall_cons]); apply cf_scalar; assumption). tauto.
Qed.

Lemma f2_refl : forall but (s : list text), Forall2 (canon but) s s.
Proof. induction s; constructor; auto using canon_refl. Qed.
Lemma f2_sym : forall but (s s' : list text), Forall2 (canon but) s s' -> Forall2 (canon but) s' s.
Proof. intros but s s' F. induction F; constructor; auto using canon_sym. Qed.
Lemma f2_trans : forall but (s s' s'' : list text), Forall2 (canon but) s s' -> Forall2 (canon but) s' s'' -> Forall2 (canon but) s s''.
Proof. intros but s s' s'' F. revert s''. induction F as [|x y l l' H F IH]; intros s'' G; inversion G; subst; constructor; eauto using canon_trans. Qed.

Section Alike.
  Variables (A : api) (D : text -> text -> op -> Prop) (but : list N).
  Hypothesis C : tokens_are_segments A D.
  Hypothesis HX : forall cps segs, segmentation D cps segs -> segmentation D (decompose cps) (map decompose segs).
  Hypothesis HM : forall c d, In (c, d) decompositions -> ~ In c but -> placed D [c] d.
  Hypothesis HO : forall a b, (0 < ccc b < ccc a)%N -> placed D [a; b] [b; a].
  Lemma placed_segs : forall X Y, placed D X Y -> (forall u v, canon but (u ++ X ++ v) (u ++ Y ++ v)) -> forall u v segs segs', segmentation D (u ++ X ++ v) segs -> segmentation D (u ++ Y ++ v) segs' -> Forall2 (canon but) segs segs'.
  Proof.
    intros X Y P K u v segs segs' G G'. destruct (placed_change D X Y P u v segs G) as (s1 & p & q & s2 & -> & G2). rewrite (segmentation_unique _ _ _ _ G' G2).
    apply Forall2_app; [apply f2_refl|]. apply Forall2_app; [constructor; [apply K|constructor]|apply f2_refl].
  Qed.
  Lemma canon_segs : forall t t', canon but t t' -> scalars t -> forall segs segs', segmentation D t segs -> segmentation D t' segs' -> Forall2 (canon but) segs segs'.
  Proof.
    intros t t' K. induction K as [t|t u K IH|t u v K1 IH1 K2 IH2|u c d v I N|u c v H|u a b v H]; intros S segs segs' G G'.
    - rewrite (segmentation_unique _ _ _ _ G G'). apply f2_refl.
    - apply f2_sym. exact (IH (proj2 (canon_scalars _ _ _ K) S) _ _ G' G).
    - pose proof (proj1 (canon_scalars _ _ _ K1) S) as Su. destruct (C u _ Su (Nat.lt_succ_diag_r _)) as (segs1 & _ & G1). exact (f2_trans _ _ _ _ (IH1 S _ _ G G1) (IH2 Su _ _ G1 G')).
    - exact (placed_segs _ _ (HM c d I N) (fun u v => canon_mapping but u c d v I N) _ _ _ _ G G').
    - apply HX in G, G'. rewrite !decompose_app, (decompose_jamo c H) in G'. rewrite !decompose_app in G. replace (decompose [c]) with (jamo c) in G by (unfold decompose; cbn; rewrite app_nil_r; reflexivity).
      pose proof (segmentation_unique _ _ _ _ G G') as M. clear - M. revert segs' M. induction segs as [|s segs IH]; intros [|s' segs'] M; try discriminate; constructor; cbn in M; injection M as M1 M2; auto.
      apply (canon_trans _ _ (decompose s)); [apply canon_decompose|]. rewrite M1. apply canon_sym, canon_decompose.
    - exact (placed_segs _ _ (HO a b H) (fun u v => canon_order but u a b v H) _ _ _ _ G G').
  Qed.
  Lemma canon_alike : cut_alike A (canon but).
  Proof.
    intros t t' fuel S S' K L L'. destruct (C t fuel S L) as (segs & T & G). destruct (C t' fuel S' L') as (segs' & T' & G'). exists segs, segs'. split; [exact T|]. split; [exact T'|].
    split; [exact (proj1 G)|]. split; [exact (proj1 G')|]. exact (canon_segs t t' K S segs segs' G G').
  Qed.
End Alike.

Lemma g_map : forall c d, In (c, d) decompositions -> ~ In c [stroked_arrow] -> placed SpecGraphemes.grapheme_decides [c] d.
Proof.
  intros c d I N. destruct (mapping_facts c d I) as (a & ms & -> & _ & _ & E & _ & M & T & _). apply g_placed_marks; [|exact T|].
  - apply E. intros ->. apply N. left. reflexivity.
  - eapply Forall_impl; [|exact M]. intros m K. exact (mf_g m K).
Qed.
Lemma g_order : forall a b, (0 < ccc b < ccc a)%N -> placed SpecGraphemes.grapheme_decides [a; b] [b; a].
Proof. intros a b H. apply g_placed_swap; apply cf_g, ccc_facts; lia. Qed.
Section W.
  Variable al : N -> bool.
  Variable more : list rule.
  Hypothesis DJ : forall b a, SpecWords.word_like al more b a Break -> SpecWords.word_like al more b a Join -> False.
  Hypothesis RS : forall b a o b' a', Forall2 same_word b b' -> Forall2 same_word a a' -> SpecWords.word_like al more b a o -> SpecWords.word_like al more b' a' o.
  Lemma inner_w : forall b y m a, w_takes y \/ w_mark y -> w_mark m -> ~ SpecWords.word_like al more (b ++ [y]) (m :: a) Break.
  Proof. intros b y m a Hy Hm X. exact (DJ _ _ X (MarkRules.like_inner al more b y m a Hy Hm)). Qed.
  Lemma w_map : forall c d, In (c, d) decompositions -> ~ In c [stroked_arrow] -> placed (SpecWords.word_like al more) [c] d.
  Proof.
    intros c d I N. destruct (mapping_facts c d I) as (a & ms & -> & _ & _ & E & _ & M & _ & T & _). apply (placed_marks _ w_mark w_takes same_word w_refl w_sym RS (like_says al more) inner_w); [|exact T|].
    - apply E. intros ->. apply N. left. reflexivity.
    - eapply Forall_impl; [|exact M]. intros m K. exact (mf_w m K).
  Qed.
  Lemma w_order : forall a b, (0 < ccc b < ccc a)%N -> placed (SpecWords.word_like al more) [a; b] [b; a].
  Proof.
    intros a b H. pose proof (ccc_facts a ltac:(lia)) as Ha. pose proof (ccc_facts b ltac:(lia)) as Hb. apply (placed_swap _ w_mark w_takes same_word w_refl w_sym RS inner_w); [|apply cf_w; exact Ha|apply cf_w; exact Hb].
    split; [transitivity WB_Extend; [exact (cf_w a Ha)|symmetry; exact (cf_w b Hb)]|]. destruct (cf_g a Ha) as (_ & _ & ->). destruct (cf_g b Hb) as (_ & _ & ->). reflexivity.
  Qed.
End W.
Lemma inner_s : forall b y m a, s_takes y \/ s_mark y -> s_mark m -> ~ SpecSentences.sentence_decides (b ++ [y]) (m :: a) Break.
Proof. intros b y m a Hy Hm X. exact (SentencesConform.s_disjoint _ _ X (MarkRules.s_inner b y m a Hy Hm)). Qed.
Lemma s_map : forall c d, In (c, d) decompositions -> ~ In c [] -> placed SpecSentences.sentence_decides [c] d.
Proof.
  intros c d I _. destruct (mapping_facts c d I) as (a & ms & -> & _ & _ & _ & E & M & _ & _ & T). apply (placed_marks _ s_mark s_takes same_sentence s_refl s_sym s_resp s_says inner_s); [exact E|exact T|].
  eapply Forall_impl; [|exact M]. intros m K. exact (mf_s m K).
Qed.
Lemma s_order : forall a b, (0 < ccc b < ccc a)%N -> placed SpecSentences.sentence_decides [a; b] [b; a].
Proof.
  intros a b H. pose proof (ccc_facts a ltac:(lia)) as Ha. pose proof (ccc_facts b ltac:(lia)) as Hb. apply (placed_swap _ s_mark s_takes same_sentence s_refl s_sym s_resp inner_s); [|apply cf_s; exact Ha|apply cf_s; exact Hb].
  transitivity SB_Extend; [exact (cf_s a Ha)|symmetry; exact (cf_s b Hb)].
Qed.

(** Graphemes, words and phrases: with every canonical mapping but one. *)
Theorem C73_graphemes : cut_alike graphemes_api (canon [stroked_arrow]).
Proof. exact (canon_alike _ _ _ g_segments g_exp g_map g_order). Qed.
Print Assumptions C73_graphemes.
Theorem C73_words : cut_alike words_api (canon [stroked_arrow]).
Proof. exact (canon_alike _ _ _ w_segments w_exp (w_map _ _ WordsConform.w_disjoint w_resp) (w_order _ _ WordsConform.w_disjoint w_resp)). Qed.
Print Assumptions C73_words.
Theorem C73_phrases : cut_alike phrases_api (canon [stroked_arrow]).
Proof. exact (canon_alike _ _ _ p_segments p_exp (w_map _ _ PhrasesConform.p_disjoint p_resp) (w_order _ _ PhrasesConform.p_disjoint p_resp)). Qed.
Print Assumptions C73_phrases.
(** Sentences: with all of them. *)
Theorem C73_sentences : cut_alike sentences_api (canon []).
Proof. exact (canon_alike _ _ _ s_segments s_exp s_map s_order). Qed.
Print Assumptions C73_sentences.

(** The mapping left out is the exception: U+21AE is no pictograph, but the arrow it decomposes to is one. *)
Definition arrow_in (before after : list N) : list N * list N := (before ++ [0x21AE] ++ after, before ++ [0x2194; 0x338] ++ after)%N.
Lemma arrow_canon : forall before after, canon [] (fst (arrow_in before after)) (snd (arrow_in before after)).
Proof.
  intros before after. apply canon_mapping; [|intros []].
  assert (H : existsb (fun e : N * list N => (fst e =? 0x21AE)%N && match snd e with [a; b] => (a =? 0x2194)%N && (b =? 0x338)%N | _ => false end) decompositions = true) by (vm_compute; reflexivity).
  apply existsb_exists in H. destruct H as ((c, d) & I & H). cbn [fst snd] in H. apply andb_prop in H. destruct H as (H1 & H2). apply N.eqb_eq in H1. subst c. destruct d as [|a [|b [|]]]; try discriminate.
  apply andb_prop in H2. destruct H2 as (H2 & H3). apply N.eqb_eq in H2, H3. subst a b. exact I.
Qed.
Lemma differ : forall A t t' n n', canon [] t t' -> scalars t -> scalars t' -> length (encode t) < 30 -> length (encode t') < 30 ->
  (exists l, tokens A 30 (a_new A (encode t)) = Ok l /\ length l = n) -> (exists l, tokens A 30 (a_new A (encode t')) = Ok l /\ length l = n') -> n <> n' -> ~ cut_alike A (canon []).
Proof.
  intros A t t' n n' K S S' L L' (l & T & E) (l' & T' & E') N H. destruct (H t t' 30 S S' K L L') as (segs & segs' & U & U' & _ & _ & F). rewrite T in U. rewrite T' in U'. injection U as ->. injection U' as ->.
  rewrite map_length in E, E'. apply N. subst n n'. clear - F. induction F; cbn; congruence.
Qed.
(** The arrow, a zero width joiner and a copyright sign: two clusters, and one when the arrow is decomposed. *)
Theorem C73_arrow_graphemes_refuted : ~ cut_alike graphemes_api (canon []).
Proof.
  apply (differ graphemes_api _ _ 2 1 (arrow_canon [] [0x200D; 0xA9]%N)); [repeat (first [apply Forall_nil|apply Forall_cons; [left; cbn; lia|]])|repeat (first [apply Forall_nil|apply Forall_cons; [left; cbn; lia|]])|vm_compute; lia|vm_compute; lia| | |discriminate];
    eexists; (split; [vm_compute; reflexivity|reflexivity]).
Qed.
Print Assumptions C73_arrow_graphemes_refuted.
Theorem C73_arrow_words_refuted : ~ cut_alike words_api (canon []) /\ ~ cut_alike phrases_api (canon []).
Proof.
  split; [apply (differ words_api _ _ 2 1 (arrow_canon [0x200D]%N []))|apply (differ phrases_api _ _ 2 1 (arrow_canon [0x200D]%N []))];
    try (repeat (first [apply Forall_nil|apply Forall_cons; [left; cbn; lia|]])); try (vm_compute; lia); try discriminate;
    eexists; (split; [vm_compute; reflexivity|reflexivity]).
Qed.
Print Assumptions C73_arrow_words_refuted.

(** A letter with two marks, in four spellings: composed, half composed, decomposed, and with the marks in another order; then a Hangul syllable and a Bengali vowel sign in two parts. *)
Lemma canon_four : let s := canon [stroked_arrow] in
  s [0x1ED9]%N [0x1ECD; 0x302]%N /\ s [0x1ECD; 0x302]%N [111; 0x323; 0x302]%N /\ s [111; 0x302; 0x323]%N [111; 0x323; 0x302]%N
  /\ s [0xD55C; 0x995; 0x9CB]%N [0x1112; 0x1161; 0x11AB; 0x995; 0x9C7; 0x9BE]%N.
Proof.
  assert (K : forall c d, existsb (fun e : N * list N => (fst e =? c)%N && if list_eq_dec N.eq_dec (snd e) d then true else false) decompositions = true -> In (c, d) decompositions).
  { intros c d H. apply existsb_exists in H. destruct H as ((c', d') & I & H). cbn [fst snd] in H. apply andb_prop in H. destruct H as (H1 & H2). apply N.eqb_eq in H1. subst c'. destruct (list_eq_dec N.eq_dec d' d) as [->|]; [exact I|discriminate]. }
  assert (NA : forall c, (c =? stroked_arrow)%N = false -> ~ In c [stroked_arrow]) by (intros c H [E|[]]; rewrite <- E, N.eqb_refl in H; discriminate).
  assert (M1 : In (0x1ED9, [0x1ECD; 0x302])%N decompositions) by (apply K; vm_compute; reflexivity).
  assert (M2 : In (0x1ECD, [111; 0x323])%N decompositions) by (apply K; vm_compute; reflexivity).
  assert (M3 : In (0x9CB, [0x9C7; 0x9BE])%N decompositions) by (apply K; vm_compute; reflexivity).
  clear K. cbv zeta. split; [exact (canon_mapping _ [] 0x1ED9 [0x1ECD; 0x302] [] M1 (NA 0x1ED9 eq_refl))%N|].
  split; [exact (canon_mapping _ [] 0x1ECD [111; 0x323] [0x302] M2 (NA 0x1ECD eq_refl))%N|].
  split; [exact (canon_order _ [111] 0x302 0x323 [] ltac:(vm_compute; split; reflexivity))%N|].
  apply (canon_trans _ _ [0xD55C; 0x995; 0x9C7; 0x9BE]%N).
  - exact (canon_mapping _ [0xD55C; 0x995] 0x9CB [0x9C7; 0x9BE] [] M3 (NA 0x9CB eq_refl))%N.
  - exact (canon_hangul _ [] 0xD55C [0x995; 0x9C7; 0x9BE] eq_refl)%N.
Qed.
Example C73_case : let t := [0x1ED9; 46; 32; 0xD55C; 0x995; 0x9CB]%N in let t' := [111; 0x302; 0x323; 46; 32; 0x1112; 0x1161; 0x11AB; 0x995; 0x9C7; 0x9BE]%N in
  canon [stroked_arrow] t t' /\ scalars t /\ scalars t'
  /\ tokens words_api 40 (a_new words_api (encode t)) = Ok (map encode [[0x1ED9]; [46]; [32]; [0xD55C; 0x995; 0x9CB]]%N)
  /\ tokens words_api 40 (a_new words_api (encode t')) = Ok (map encode [[111; 0x302; 0x323]; [46]; [32]; [0x1112; 0x1161; 0x11AB; 0x995; 0x9C7; 0x9BE]]%N).
Proof.
  destruct canon_four as (A & B & C & D). cbv zeta. split.
  - apply (canon_trans _ _ ([111; 0x302; 0x323] ++ [46; 32] ++ [0xD55C; 0x995; 0x9CB])%N).
    + apply (canon_in _ [0x1ED9]%N [111; 0x302; 0x323]%N [] ([46; 32] ++ [0xD55C; 0x995; 0x9CB])%N). apply (canon_trans _ _ _ _ A). apply (canon_trans _ _ _ _ B). apply canon_sym. exact C.
    + pose proof (canon_in _ _ _ [111; 0x302; 0x323; 46; 32]%N [] D) as X. rewrite !app_nil_r in X. exact X.
  - split; [repeat (first [apply Forall_nil|apply Forall_cons; [left; cbn; lia|]])|]. split; [repeat (first [apply Forall_nil|apply Forall_cons; [left; cbn; lia|]])|]. split; vm_compute; reflexivity.
Qed.
