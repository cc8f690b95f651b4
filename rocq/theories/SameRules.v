(** The rules of the four packages look at nothing but the properties. *)
From Verif Require Import Base ListFacts SpecUcd SpecRules SpecSame SameFacts.
From Verif Require SpecGraphemes SpecWords SpecSentences.

Ltac keeps_all := repeat (match goal with
  | |- Forall _ (_ :: _) => apply Forall_cons
  | |- Forall _ [] => apply Forall_nil
  | |- resp_rule _ _ => split
  | |- _ /\ _ => split
  | |- True => exact I
  | |- resp ?R ?r => let r' := eval hnf in r in change (resp R r')
  end; cbn [resp_left resp r_left r_right]).

Section G.
  Import SpecGraphemes.
  Lemma g_sym : forall x y, same_grapheme x y -> same_grapheme y x.
  Proof. intros x y (A & B & C). repeat split; auto. Qed.
  Lemma g_keep : forall k, keeps same_grapheme (gc k).
  Proof. intros k x y (A & _). unfold gc. rewrite A. reflexivity. Qed.
  Lemma i_keep : forall k, keeps same_grapheme (ic k).
  Proof. intros k x y (_ & A & _). unfold ic. rewrite A. reflexivity. Qed.
  Lemma gp_keep : keeps same_grapheme ExtPict.
  Proof. intros x y (_ & _ & A). exact A. Qed.
  Lemma gn_keep : keeps same_grapheme (fun c => negb (gc GCB_Regional_Indicator c)).
  Proof. intros x y H. rewrite (g_keep _ x y H). reflexivity. Qed.
  Lemma g_resp : forall b a o b' a', Forall2 same_grapheme b b' -> Forall2 same_grapheme a a' -> grapheme_decides b a o -> grapheme_decides b' a' o.
  Proof.
    intros b a o b' a' Fb Fa. apply (says_resp _ g_sym); auto. unfold grapheme_rules. keeps_all; try apply g_keep; try apply i_keep; try exact gp_keep; exact gn_keep.
  Qed.
End G.

Section W.
  Import SpecWords.
  Lemma w_sym : forall x y, same_word x y -> same_word y x.
  Proof. intros x y (A & B). split; auto. Qed.
  Lemma w_keep : forall k, keeps same_word (wc k).
  Proof. intros k x y (A & _). unfold wc. rewrite A. reflexivity. Qed.
  Lemma wp_keep : keeps same_word ExtPict.
  Proof. intros x y (_ & A). exact A. Qed.
  Lemma wn_keep : keeps same_word (fun c => negb (wc WB_Regional_Indicator c)).
  Proof. intros x y H. rewrite (w_keep _ x y H). reflexivity. Qed.
  Lemma ignored_keep : keeps same_word ignored.
  Proof. intros x y H. unfold ignored. rewrite !(w_keep _ x y H). reflexivity. Qed.
  Lemma line_keep : keeps same_word line_end.
  Proof. intros x y H. unfold line_end. rewrite !(w_keep _ x y H). reflexivity. Qed.
  Lemma like_resp : forall al more, keeps same_word al -> Forall (resp_rule same_word) more ->
    forall b a o b' a', Forall2 same_word b b' -> Forall2 same_word a a' -> word_like al more b a o -> word_like al more b' a' o.
  Proof.
    intros al more Ka Km b a o b' a' Fb Fa.
    assert (R1 : Forall (resp_rule same_word) word_rules_1) by (unfold word_rules_1; keeps_all; try apply w_keep; try exact wp_keep; exact ignored_keep).
    assert (R2 : Forall (resp_rule same_word) (word_rules_2 al more)).
    { unfold word_rules_2. apply Forall_app. split; [keeps_all; try exact Ka; try apply w_keep; exact wn_keep|]. apply Forall_app. split; [exact Km|keeps_all]. }
    intros [S|(S1 & S2)]; [left; exact (says_resp _ w_sym _ _ _ _ _ _ R1 Fb Fa S)|]. right. split; [exact (says_resp _ w_sym _ _ _ _ _ _ R1 Fb Fa S1)|].
    refine (says_resp _ w_sym _ _ _ _ _ _ R2 _ _ S2); apply (reduce_resp _ _ _ ignored_keep line_keep); auto; [exact I|]. apply last_resp. exact Fb.
  Qed.
  Lemma w_resp : forall b a o b' a', Forall2 same_word b b' -> Forall2 same_word a a' -> word_decides b a o -> word_decides b' a' o.
  Proof. apply like_resp; [apply w_keep|constructor]. Qed.
  Lemma pl_keep : keeps same_word phrase_letter.
  Proof. intros x y H. unfold phrase_letter. rewrite (w_keep _ x y H), (wp_keep x y H). reflexivity. Qed.
  Lemma p_resp : forall b a o b' a', Forall2 same_word b b' -> Forall2 same_word a a' -> phrase_decides b a o -> phrase_decides b' a' o.
  Proof. apply like_resp; [exact pl_keep|]. keeps_all; try exact pl_keep; apply w_keep. Qed.
End W.

Section S.
  Import SpecSentences.
  Lemma s_sym : forall x y, same_sentence x y -> same_sentence y x.
  Proof. intros x y H. symmetry. exact H. Qed.
  Lemma s_keep : forall k, keeps same_sentence (sc k).
  Proof. intros k x y A. unfold sc. rewrite A. reflexivity. Qed.
  Lemma s_ignored_keep : keeps same_sentence ignored.
  Proof. intros x y H. unfold ignored. rewrite !(s_keep _ x y H). reflexivity. Qed.
  Lemma para_keep : keeps same_sentence para_sep.
  Proof. intros x y H. unfold para_sep. rewrite !(s_keep _ x y H). reflexivity. Qed.
  Lemma s_resp : forall b a o b' a', Forall2 same_sentence b b' -> Forall2 same_sentence a a' -> sentence_decides b a o -> sentence_decides b' a' o.
  Proof.
    intros b a o b' a' Fb Fa.
    assert (R1 : Forall (resp_rule same_sentence) sentence_rules_1) by (unfold sentence_rules_1; keeps_all; try apply s_keep; exact s_ignored_keep).
    assert (NS : keeps same_sentence (fun c => negb (sc SB_OLetter c || sc SB_Upper c || sc SB_Lower c || para_sep c || sc SB_STerm c || sc SB_ATerm c))).
    { intros x y H. rewrite !(s_keep _ x y H), (para_keep x y H). reflexivity. }
    assert (R2 : Forall (resp_rule same_sentence) sentence_rules_2) by (unfold sentence_rules_2; keeps_all; try apply s_keep; exact NS).
    intros [S|(S1 & S2)]; [left; exact (says_resp _ s_sym _ _ _ _ _ _ R1 Fb Fa S)|]. right. split; [exact (says_resp _ s_sym _ _ _ _ _ _ R1 Fb Fa S1)|].
    refine (says_resp _ s_sym _ _ _ _ _ _ R2 _ _ S2); apply (reduce_resp _ _ _ s_ignored_keep para_keep); auto; [exact I|]. apply last_resp. exact Fb.
  Qed.
End S.
