(** Consecutive tokens of a text, taken out of it, are the tokens of what they spell: the iterators. *)
From Verif Require Import Base ListFacts Trie Engine EngineMore Lk SpecUtf8 SpecRules SpecIter SpecApi Drive ApiFacts ApiInst JoinersFacts SpecJoiners Conform ConformApi UcdFacts AnsiCuts Pieces.
From Verif Require GraphemesEngine GraphemesConform GraphemesIter Graphemes UcdGraphemes Words WordsIter WordsEngine PiecesWords JoinersBounds Sentences SentencesEngine SentencesConform PiecesSentences Phrases PhrasesEngine PhrasesConform PiecesPhrases.

Definition cuts_off (f : splitfun) : Prop := forall a b n, scalars a -> a <> [] -> n <= length (encode a) ->
  f (encode a ++ b) true = Ok (e_done n (firstn n (encode a ++ b))) -> f (encode a) true = Ok (e_done n (firstn n (encode a))).
Definition whole_chars (f : splitfun) : Prop := forall x a, scalars (x :: a) -> exists s a2, x :: a = s ++ a2 /\ f (encode (x :: a)) true = Ok (e_done (length (encode s)) (encode s)).

Lemma tb_prefix : forall f, cuts_off f -> whole_chars f -> forall d l, tokens_by f d l -> forall l1 l2 a, l = l1 ++ l2 -> scalars a -> concat l1 = encode a -> tokens_by f (concat l1) l1.
Proof.
  intros f HC HW d l H. induction H as [|d n l Hs Hn HT IH]; intros l1 l2 a E Ha EA.
  { symmetry in E. apply app_eq_nil in E. destruct E as [-> _]. constructor. }
  destruct l1 as [|t l1]; [constructor|]. injection E as <- E. cbn [concat] in *.
  destruct (tb_suffix _ _ _ HT [] l eq_refl) as (ED & _). cbn [concat app] in ED. rewrite E, concat_app in ED.
  assert (Edd : d = encode a ++ concat l2). { rewrite <- EA, <- app_assoc, <- ED. symmetry. apply firstn_skipn. }
  assert (LN : length (firstn n d) = n) by (rewrite firstn_length; lia).
  assert (Hne : a <> []). { intros ->. cbn in EA. apply app_eq_nil in EA. destruct EA as [EA _]. rewrite EA in LN. cbn in LN. lia. }
  assert (HL : n <= length (encode a)). { rewrite <- EA, app_length. lia. }
  rewrite Edd in Hs. pose proof (HC a (concat l2) n Ha Hne HL Hs) as H1. destruct a as [|x a]; [congruence|].
  destruct (HW x a Ha) as (s & a2 & Es & H2). rewrite H1 in H2. injection H2 as H2 _. apply Nat2Z.inj in H2. subst n.
  assert (EX : firstn (length (encode s)) d = encode s). { rewrite Edd, Es, encode_app, <- app_assoc, firstn_app, firstn_all, Nat.sub_diag. apply app_nil_r. }
  rewrite EX in *. rewrite Es, encode_app in EA. apply app_inv_head in EA.
  assert (HS2 : scalars a2) by (rewrite Es in Ha; apply Forall_app in Ha; tauto). specialize (IH l1 l2 a2 E HS2 EA).
  rewrite EA in *. rewrite <- encode_app, <- Es in *.
  assert (EY : firstn (length (encode s)) (encode (x :: a)) = encode s). { rewrite Es, encode_app, firstn_app, firstn_all, Nat.sub_diag. apply app_nil_r. }
  replace (encode s :: l1) with (firstn (length (encode s)) (encode (x :: a)) :: l1) by (rewrite EY; reflexivity). constructor.
  - exact H1.
  - split; [lia|]. rewrite Es, encode_app, app_length. lia.
  - rewrite Es, encode_app, skipn_app, skipn_all, Nat.sub_diag. exact IH.
Qed.

Lemma g_cuts_off : cuts_off Graphemes.splitFunc.
Proof.
  intros a b n Hs Ha Hn H. rewrite <- GraphemesEngine.g_split_engine in H |- *.
  refine (pieces_split GraphemesEngine.GE GraphemesEngine.g_mu g_lk GraphemesEngine.g_rules_ok GraphemesEngine.g_fuel GraphemesConform.g_FU _ _ UcdGraphemes.g_lookup_cp UcdGraphemes.g_lookup_cp _ _ a b n Hs Ha Hn H).
  - intros st x a' b' Hs' H'. exact H'.
  - intros st x a' b' adv st' m k Hs' H' _ _ _. split; [exact H'|]. change (e_rules GraphemesEngine.GE) with GraphemesEngine.g_erules in H'. unfold GraphemesEngine.g_erules in H'. cbv zeta in H'.
    destruct (Graphemes.g_rules _ _ _ _ _); [|discriminate]. injection H' as <- <-. exact (PiecesSentences.one_char x a').
Qed.

Section Runs.
  Context {A : api} {K : Type} {data : It A -> bytes} {pos start : It A -> nat} {kof : It A -> K -> Prop} {f : K -> splitfun} {newK : K} {cfgK : Cfg A -> K -> K}.
  Hypothesis AO : api_ok A data pos start kof f newK cfgK.
  Lemma tokens_tb : forall k, well_behaved (f k) -> forall it fuel l, kof it k -> pos it = 0 -> length (data it) < fuel -> (tokens A fuel it = Ok l <-> tokens_by (f k) (data it) l).
  Proof.
    intros k WB it fuel l Hk Hp Hf. destruct (collect_chop (ao_next _ _ _ _ _ _ _ _ AO k) fuel it (S (length (data it))) Hk) as (l1 & H1 & HC); try lia. rewrite Hp in HC. cbn [skipn] in HC. split; intros H.
    - unfold tokens in H. rewrite H in H1. injection H1 as <-. eapply by_chop; [exact WB| |exact HC]. lia.
    - rewrite (tb_chop _ _ _ H _ (Nat.lt_succ_diag_r _)) in HC. injection HC as <-. exact H1.
  Qed.
  Lemma runs : forall k, well_behaved (f k) -> cuts_off (f k) -> whole_chars (f k) -> forall (mk : bytes -> It A), (forall d, kof (mk d) k /\ pos (mk d) = 0 /\ data (mk d) = d) ->
    forall d l1 l2 l3 fuel, length d < fuel -> tokens A fuel (mk d) = Ok (l1 ++ l2 ++ l3) -> (l3 = [] \/ well_formed (concat l2)) -> tokens A fuel (mk (concat l2)) = Ok l2.
  Proof.
    intros k WB HC HW mk HM d l1 l2 l3 fuel Hf H H3. destruct (HM d) as (M1 & M2 & M3). destruct (HM (concat l2)) as (N1 & N2 & N3).
    apply (tokens_tb k WB _ _ _ M1 M2) in H; [|rewrite M3; exact Hf]. rewrite M3 in H. destruct (tb_suffix _ _ _ H l1 (l2 ++ l3) eq_refl) as (ED & HT).
    assert (HL : length (concat l2) < fuel). { rewrite ED, app_length, concat_app, app_length in Hf. lia. }
    apply (tokens_tb k WB _ _ _ N1 N2); [rewrite N3; exact HL|]. rewrite N3. destruct H3 as [->|(cps & Hs & E)].
    - rewrite app_nil_r in HT. exact HT.
    - exact (tb_prefix _ HC HW _ _ HT l2 l3 cps eq_refl Hs E).
  Qed.
End Runs.

Lemma g_whole : whole_chars Graphemes.splitFunc.
Proof.
  intros x a Hs. destruct (conform_split GraphemesEngine.GE GraphemesEngine.g_mu GraphemesEngine.g_rules_ok GraphemesEngine.g_fuel GraphemesConform.g_FU Graphemes.splitFunc GraphemesEngine.g_split_engine _ _ UcdGraphemes.g_lookup_cp UcdGraphemes.g_lookup_cp
    _ GraphemesConform.g_Sim GraphemesConform.g_INIT GraphemesConform.g_STEP [] x a Hs (or_introl eq_refl)) as (s & a2 & E & _ & H & _). eauto.
Qed.
Lemma s_whole : whole_chars Sentences.splitFunc.
Proof.
  intros x a Hs. destruct (conform_split SentencesEngine.SE SentencesEngine.s_mu SentencesEngine.s_rules_ok SentencesEngine.s_fuel SentencesConform.s_FU Sentences.splitFunc SentencesEngine.s_split_engine _ _ SentencesConform.lk_cp SentencesConform.lk_cp
    _ SentencesConform.s_Sim SentencesConform.s_INIT SentencesConform.s_STEP [] x a Hs (or_introl eq_refl)) as (s & a2 & E & _ & H & _). eauto.
Qed.
Lemma p_whole : whole_chars Phrases.splitFunc.
Proof.
  intros x a Hs. destruct (conform_split PhrasesEngine.PE PhrasesEngine.p_mu PhrasesEngine.p_rules_ok PhrasesEngine.p_fuel PhrasesConform.p_FU Phrases.splitFunc PhrasesEngine.p_split_engine _ _ UcdPhrases.p_lookup_cp UcdPhrases.p_lookup_cp
    _ PhrasesConform.p_Sim PhrasesConform.p_INIT PhrasesConform.p_STEP [] x a Hs (or_introl eq_refl)) as (s & a2 & E & _ & H & _). eauto.
Qed.
Lemma w_whole : forall j, whole_chars (WordsIter.w_isplit (Words.joinersSplitFunc j)).
Proof. intros j x a Hs. destruct (JoinersBounds.i_split j [] x a Hs (or_introl eq_refl)) as (s & a2 & E & _ & H & _). eauto. Qed.
