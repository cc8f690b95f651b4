(** Hangul syllables and the rules of the four packages. *)
From Verif Require Import Base ListFacts SpecUcd SpecRules SpecHangul HangulFacts HangulProps.
From Verif Require SpecGraphemes SpecWords SpecSentences GraphemesConform WordsConform SentencesConform PhrasesConform.

Lemma dec_other : forall x, sp x = false -> jamo x = [x].
Proof. intros x H. unfold sp in H. apply orb_false_elim in H. destruct H as (H & _). unfold jamo. rewrite H. reflexivity. Qed.
Lemma dec_sp : forall x, sp x = true -> jamo x <> [] /\ Forall (fun y => sp y = true) (jamo x).
Proof. intros x H. destruct (sp_hangul x H) as [c J _ _|c l v J|c l v t J]; rewrite J; (split; [discriminate|]); repeat constructor; assumption. Qed.
Lemma sp_plain : forall x, sp x = true -> plain_char x.
Proof. intros x H. destruct (sp_hangul x H); assumption. Qed.
Lemma last_two : forall (A : Type) (l : list A) y a b, [a; b] = l ++ [y] -> y = b.
Proof. intros A l y a b E. change [a; b] with ([a] ++ [b]) in E. apply app_inj_tail in E. destruct E. congruence. Qed.
Lemma last_three : forall (A : Type) (l : list A) y a b c, [a; b; c] = l ++ [y] -> y = c.
Proof. intros A l y a b c E. change [a; b; c] with ([a; b] ++ [c]) in E. apply app_inj_tail in E. destruct E. congruence. Qed.
Lemma last_class : forall x l y, sp x = true -> jamo x = l ++ [y] -> sp y = true /\ (x = y \/ (GCB x = GCB_LV /\ GCB y = GCB_V) \/ (GCB x = GCB_LVT /\ GCB y = GCB_T)).
Proof.
  intros x l y H E. destruct (sp_hangul x H) as [c J _ _|c a v J|c a v t J]; rewrite J in E.
  - destruct l as [|? [|]]; try discriminate. injection E as ->. auto.
  - apply last_two in E. subst y. auto.
  - apply last_three in E. subst y. auto 6.
Qed.
Lemma first_class : forall x l y, sp x = true -> jamo x = y :: l -> sp y = true /\ (x = y \/ ((GCB x = GCB_LV \/ GCB x = GCB_LVT) /\ GCB y = GCB_L)).
Proof. intros x l y H E. destruct (sp_hangul x H) as [c J _ _|c a v J|c a v t J]; rewrite J in E; injection E as -> _; auto 6. Qed.
(** Between two parts of a syllable. *)
Lemma inner_class : forall x j1 j2, jamo x = j1 ++ j2 -> j1 <> [] -> j2 <> [] -> exists k y z r, j1 = k ++ [y] /\ j2 = z :: r /\ sp y = true /\ sp z = true
  /\ ((GCB y = GCB_L /\ GCB z = GCB_V) \/ (GCB y = GCB_V /\ GCB z = GCB_T)).
Proof.
  intros x j1 j2 E N1 N2. destruct (sp x) eqn:S; [|rewrite dec_other in E by exact S; destruct j1 as [|? [|]]; try congruence; destruct j2; try congruence; discriminate].
  destruct (sp_hangul x S) as [c J _ _|c a v J|c a v t J]; rewrite J in E.
  - destruct j1 as [|? [|]]; try congruence; destruct j2; try congruence; discriminate.
  - destruct j1 as [|p [|q [|]]]; try congruence; destruct j2 as [|z j2]; try congruence; try discriminate. injection E as -> -> _. exists [], p, z, j2. auto 8.
  - destruct j1 as [|p [|q [|u [|]]]]; try congruence; destruct j2 as [|z j2]; try congruence; try discriminate.
    + injection E as -> -> _. exists [], p, z, j2. auto 8.
    + injection E as -> -> -> _. exists [p], q, z, j2. auto 8.
Qed.

Ltac see r := let r' := eval hnf in r in change r with r'.
Ltac solve_one := lazymatch goal with
  | |- one (Cls _) _ => apply one_cls
  | |- one (Alt _ _) _ => eapply one_alt; solve_one
  | |- one ?r ?p => let r' := eval hnf in r in change (one r' p); solve_one
  end.
Ltac solve_free tac := lazymatch goal with
  | |- free sp Eps => exact I
  | |- free sp (Cls _) => tac
  | |- free sp (Star ?r) => change (free sp r); solve_free tac
  | |- free sp (Cat _ _) => split; solve_free tac
  | |- free sp (Alt _ _) => split; solve_free tac
  | |- free sp ?r => let r' := eval hnf in r in change (free sp r'); solve_free tac
  end.
Ltac solve_lok fr on := lazymatch goal with
  | |- lok _ Eps => apply lok_eps
  | |- lok _ (Cls _) => first [apply (lok_free jamo sp dec_other dec_sp); solve_free fr|eapply (lok_one jamo sp dec_other dec_sp); [solve_one|on]]
  | |- lok _ (Alt _ _) => first [apply (lok_free jamo sp dec_other dec_sp); solve_free fr|eapply (lok_one jamo sp dec_other dec_sp); [solve_one|on]]
  | |- lok _ (Cat _ _) => apply (lok_cat jamo sp dec_other dec_sp); [solve_lok fr on|solve_free fr]
  | |- lok _ ?r => let r' := eval hnf in r in change (lok jamo r'); solve_lok fr on
  end.
Ltac solve_rok fr on := lazymatch goal with
  | |- rok _ Eps => apply rok_eps
  | |- rok _ (Cls _) => first [apply (rok_free jamo sp dec_other dec_sp); solve_free fr|eapply (rok_one jamo sp dec_other dec_sp); [solve_one|on]]
  | |- rok _ (Alt _ _) => first [apply (rok_free jamo sp dec_other dec_sp); solve_free fr|eapply (rok_one jamo sp dec_other dec_sp); [solve_one|on]]
  | |- rok _ (Cat _ _) => apply (rok_cat jamo sp dec_other dec_sp); [solve_free fr|solve_rok fr on]
  | |- rok _ ?r => let r' := eval hnf in r in change (rok jamo r'); solve_rok fr on
  end.
Ltac solve_rules fr lon ron := repeat (first [apply Forall_nil|apply Forall_cons]); (split; cbn [r_left r_right]; [first [solve_lok fr lon|solve_free fr]|solve_rok fr ron]).

(** ** Graphemes *)
Section G.
  Import SpecGraphemes.
  Lemma not_l : forall x, sp x = true -> GCB x = GCB_L \/ GCB x = GCB_V \/ GCB x = GCB_T \/ GCB x = GCB_LV \/ GCB x = GCB_LVT.
  Proof. intros x H. destruct (sp_hangul x H) as [c J K _|c a v J|c a v t J]; auto 6. destruct K as [K|[K|K]]; auto. Qed.
  Ltac gfr := let c := fresh "c" in let H := fresh "H" in let P := fresh "P" in let I := fresh "I" in intros c H; destruct (sp_plain c H) as (_ & P & I & _); cbv beta; lazymatch goal with
    | |- ExtPict _ = false => exact P
    | |- ic _ _ = false => unfold ic; rewrite I; reflexivity
    | |- _ => unfold gc; let E := fresh "E" in destruct (not_l c H) as [E|[E|[E|[E|E]]]]; rewrite E; reflexivity
    end.
  Ltac glon := let x := fresh "x" in let l := fresh "l" in let y := fresh "y" in let H := fresh "H" in let E := fresh "E" in intros x H l y E; destruct (last_class x l y H E) as (_ & [<-|[(A & B)|(A & B)]]); [reflexivity| |]; cbv beta; unfold gc; rewrite A, B; reflexivity.
  Ltac gron := let x := fresh "x" in let l := fresh "l" in let y := fresh "y" in let H := fresh "H" in let E := fresh "E" in intros x H y l E; destruct (first_class x l y H E) as (_ & [<-|([A|A] & B)]); [reflexivity| |]; cbv beta; unfold gc; rewrite A, B; reflexivity.
  Lemma g_ok : Forall (okrule jamo sp) grapheme_rules.
  Proof. unfold grapheme_rules. solve_rules gfr glon gron. Qed.
  Lemma g_inner : forall b a y z, (GCB y = GCB_L /\ GCB z = GCB_V) \/ (GCB y = GCB_V /\ GCB z = GCB_T) -> grapheme_decides (b ++ [y]) (z :: a) Join.
  Proof.
    intros b a y z H. unfold grapheme_decides, grapheme_rules.
    assert (EN : forall r p, one r p -> p y = false -> ~ left_applies (Suffix r) (b ++ [y])) by (intros r p O E X; apply (ends_one r p O) in X; congruence).
    assert (SN : forall r p, one r p -> p z = false -> ~ starts_with r (z :: a)) by (intros r p O E X; apply (starts_one r p O) in X; congruence).
    assert (Ky : GCB y = GCB_L \/ GCB y = GCB_V) by tauto. assert (Kz : GCB z = GCB_V \/ GCB z = GCB_T) by tauto.
    apply says_next; [intros (X & _); revert X; eapply EN; [solve_one|]; unfold gc; destruct Ky as [E|E]; rewrite E; reflexivity|].
    apply says_next; [intros (X & _); revert X; eapply EN; [solve_one|]; unfold gc; cbv beta; destruct Ky as [E|E]; rewrite E; reflexivity|].
    apply says_next; [intros (_ & X); revert X; eapply SN; [solve_one|]; unfold gc; cbv beta; destruct Kz as [E|E]; rewrite E; reflexivity|].
    destruct H as [(A & B)|(A & B)].
    - apply (says_this _ _ (Rule (Suffix L) Join (Alt L (Alt V (Alt LV LVT))))). split; cbn [r_left r_right left_applies].
      + eapply ends_one; [solve_one|]. unfold gc. rewrite A. reflexivity.
      + eapply starts_one; [solve_one|]. unfold gc. rewrite B. reflexivity.
    - apply says_next; [intros (X & _); revert X; eapply EN; [solve_one|]; unfold gc; rewrite A; reflexivity|].
      apply (says_this _ _ (Rule (Suffix (Alt LV V)) Join (Alt V T))). split; cbn [r_left r_right left_applies].
      + eapply ends_one; [solve_one|]. unfold gc. rewrite A. reflexivity.
      + eapply starts_one; [solve_one|]. unfold gc. rewrite B. reflexivity.
  Qed.
  Lemma g_exp : forall cps segs, segmentation grapheme_decides cps segs -> segmentation grapheme_decides (decompose cps) (map decompose segs).
  Proof.
    apply (seg_exp jamo sp dec_other dec_sp).
    - intros b a. apply (says_exp jamo sp dec_other dec_sp). exact g_ok.
    - intros b x a j1 j2 E N1 N2 X. destruct (inner_class x j1 j2 E N1 N2) as (k & y & z & r & -> & -> & _ & _ & K). rewrite app_assoc in X. exact (GraphemesConform.g_disjoint _ _ X (g_inner _ _ y z K)).
  Qed.
End G.

(** ** Words and phrases *)
Section W.
  Import SpecWords.
  Ltac wfr := let c := fresh "c" in let H := fresh "H" in let A := fresh "A" in let B := fresh "B" in intros c H; destruct (sp_plain c H) as (A & B & _ & _); cbv beta; lazymatch goal with
    | |- ExtPict _ = false => exact B
    | |- ignored _ = false => unfold ignored, wc; rewrite A; reflexivity
    | |- wc ?k _ = false => tryif constr_eq k WB_ALetter then fail else (unfold wc; rewrite A; reflexivity)
    end.
  Lemma w_last : forall p : N -> bool, (forall x y, WB x = WB y -> ExtPict x = ExtPict y -> p x = p y) -> forall x, sp x = true -> forall l y, jamo x = l ++ [y] -> p x = p y.
  Proof. intros p K x H l y E. destruct (last_class x l y H E) as (Y & _). destruct (sp_plain x H) as (A & B & _). destruct (sp_plain y Y) as (A' & B' & _). apply K; congruence. Qed.
  Lemma w_first : forall p : N -> bool, (forall x y, WB x = WB y -> ExtPict x = ExtPict y -> p x = p y) -> forall x, sp x = true -> forall y l, jamo x = y :: l -> p x = p y.
  Proof. intros p K x H y l E. destruct (first_class x l y H E) as (Y & _). destruct (sp_plain x H) as (A & B & _). destruct (sp_plain y Y) as (A' & B' & _). apply K; congruence. Qed.
  Ltac wp Ka := let x := fresh "x" in let y := fresh "y" in let A := fresh "A" in let B := fresh "B" in intros x y A B; cbv beta; unfold wc; rewrite ?(Ka x y A B), ?A, ?B; reflexivity.
  Section Like.
    Variable al : N -> bool.
    Hypothesis Ka : forall x y, WB x = WB y -> ExtPict x = ExtPict y -> al x = al y.
    Hypothesis Ta : forall x, WB x = WB_ALetter -> al x = true.
    Lemma al_one : forall x, WB x = WB_ALetter -> al x || wc WB_Hebrew_Letter x = true.
    Proof. intros x H. rewrite (Ta x H). reflexivity. Qed.
    Variable more : list rule.
    Hypothesis Km : Forall (okrule jamo sp) more.
    Lemma rules_1_ok : Forall (okrule jamo sp) word_rules_1.
    Proof. unfold word_rules_1. solve_rules wfr fail fail. Qed.
    Lemma rules_2_ok : Forall (okrule jamo sp) (word_rules_2 al more).
    Proof.
      unfold word_rules_2. apply Forall_app. split; [|apply Forall_app; split; [exact Km|solve_rules wfr fail fail]].
      unfold AHLetter. solve_rules wfr ltac:(apply w_last; wp Ka) ltac:(apply w_first; wp Ka).
    Qed.
    Lemma sp_keep : forall c, sp c = true -> ignored c = false /\ line_end c = false.
    Proof. intros c H. destruct (sp_plain c H) as (A & _). unfold ignored, line_end, wc. rewrite A. split; reflexivity. Qed.
    Lemma like_inner : forall b a y z, sp y = true -> sp z = true -> word_like al more (b ++ [y]) (z :: a) Join.
    Proof.
      intros b a y z Y Z. destruct (sp_plain y Y) as (Wy & Py & _). destruct (sp_plain z Z) as (Wz & Pz & _).
      assert (EN : forall r p, one r p -> p y = false -> ~ left_applies (Suffix r) (b ++ [y])) by (intros r p O E X; apply (ends_one r p O) in X; congruence).
      assert (SN : forall r p, one r p -> p z = false -> ~ starts_with r (z :: a)) by (intros r p O E X; apply (starts_one r p O) in X; congruence).
      right. split.
      - unfold word_rules_1.
        apply says_next; [intros (X & _); revert X; eapply EN; [solve_one|]; unfold wc; rewrite Wy; reflexivity|].
        apply says_next; [intros (X & _); revert X; eapply EN; [solve_one|]; unfold wc; rewrite Wy; reflexivity|].
        apply says_next; [intros (_ & X); revert X; eapply SN; [solve_one|]; unfold wc; rewrite Wz; reflexivity|].
        apply says_next; [intros (X & _); revert X; eapply EN; [solve_one|]; unfold wc; rewrite Wy; reflexivity|].
        apply says_next; [intros (X & _); revert X; eapply EN; [solve_one|]; unfold wc; rewrite Wy; reflexivity|].
        apply says_next; [intros (_ & X); revert X; eapply SN; [solve_one|]; exact (proj1 (sp_keep z Z))|].
        apply says_none.
      - rewrite (reduce_end _ _ b y None (proj1 (sp_keep y Y))), (reduce_start _ _ z a _ (proj1 (sp_keep z Z))). unfold word_rules_2. cbn [app].
        apply (says_this _ _ (Rule (Suffix (AHLetter al)) Join (AHLetter al))). split; cbn [r_left r_right left_applies].
        + eapply ends_one; [unfold AHLetter; solve_one|]. exact (al_one y Wy).
        + eapply starts_one; [unfold AHLetter; solve_one|]. exact (al_one z Wz).
    Qed.
    Lemma like_exp : (forall b a, word_like al more b a Break -> word_like al more b a Join -> False) ->
      forall cps segs, segmentation (word_like al more) cps segs -> segmentation (word_like al more) (decompose cps) (map decompose segs).
    Proof.
      intros DJ. apply (seg_exp jamo sp dec_other dec_sp).
      - intros b a. unfold word_like. rewrite (last_exp jamo sp dec_other dec_sp ignored line_end (fun c H => proj2 (sp_keep c H))).
        rewrite !(reduce_exp jamo sp dec_other dec_sp ignored line_end (fun c H => proj1 (sp_keep c H)) (fun c H => proj2 (sp_keep c H))).
        rewrite <- !(says_exp jamo sp dec_other dec_sp word_rules_1 b a _ rules_1_ok), <- (says_exp jamo sp dec_other dec_sp (word_rules_2 al more) _ _ _ rules_2_ok). reflexivity.
      - intros b x a j1 j2 E N1 N2 X. destruct (inner_class x j1 j2 E N1 N2) as (k & y & z & r & -> & -> & Y & Z & _). rewrite app_assoc in X. exact (DJ _ _ X (like_inner _ _ y z Y Z)).
    Qed.
  End Like.
  Lemma w_exp : forall cps segs, segmentation word_decides cps segs -> segmentation word_decides (decompose cps) (map decompose segs).
  Proof. apply like_exp; [intros x y A _; unfold wc; rewrite A; reflexivity|intros x A; unfold wc; rewrite A; reflexivity|constructor|exact WordsConform.w_disjoint]. Qed.
  Lemma pl_keep : forall x y, WB x = WB y -> ExtPict x = ExtPict y -> phrase_letter x = phrase_letter y.
  Proof. intros x y A B. unfold phrase_letter, wc. rewrite A, B. reflexivity. Qed.
  Lemma p_exp : forall cps segs, segmentation phrase_decides cps segs -> segmentation phrase_decides (decompose cps) (map decompose segs).
  Proof.
    apply like_exp; [exact pl_keep|intros x A; unfold phrase_letter, wc; rewrite A; reflexivity| |exact PhrasesConform.p_disjoint].
    unfold Phrasal, AHLetter. solve_rules wfr ltac:(apply w_last; wp pl_keep) ltac:(apply w_first; wp pl_keep).
  Qed.
End W.

(** ** Sentences *)
Section S.
  Import SpecSentences.
  Ltac sfr := let c := fresh "c" in let H := fresh "H" in intros c H; destruct (sp_plain c H) as (_ & _ & _ & A); unfold ignored, para_sep, sc; rewrite A; reflexivity.
  Lemma srules_1_ok : Forall (okrule jamo sp) sentence_rules_1.
  Proof. unfold sentence_rules_1. solve_rules sfr fail fail. Qed.
  Lemma srules_2_ok : Forall (okrule jamo sp) sentence_rules_2.
  Proof. unfold sentence_rules_2. solve_rules sfr fail fail. Qed.
  Lemma s_keep : forall c, sp c = true -> ignored c = false /\ para_sep c = false.
  Proof. intros c H. destruct (sp_plain c H) as (_ & _ & _ & A). unfold ignored, para_sep, sc. rewrite A. split; reflexivity. Qed.
  Lemma s_inner : forall b a y z, sp y = true -> sp z = true -> sentence_decides (b ++ [y]) (z :: a) Join.
  Proof.
    intros b a y z Y Z. assert (F : forall r b, free sp r -> nullable r = false -> ~ left_applies (Suffix r) (b ++ [y])) by (intros r b' Fr Nr; exact (free_not_ends sp r b' y Fr Nr Y)).
    right. split.
    - unfold sentence_rules_1.
      apply says_next; [intros (X & _); revert X; apply F; [solve_free sfr|reflexivity]|].
      apply says_next; [intros (X & _); revert X; apply F; [solve_free sfr|reflexivity]|].
      apply says_next; [intros (_ & X); apply (starts_one Ignored ignored (one_cls _)) in X; rewrite (proj1 (s_keep z Z)) in X; discriminate|apply says_none].
    - rewrite (reduce_end _ _ b y None (proj1 (s_keep y Y))). generalize (reduce ignored para_sep None b), (reduce ignored para_sep (last_char (b ++ [y])) (z :: a)). intros b' a'. unfold sentence_rules_2.
      do 7 (apply says_next; [intros (X & _); revert X; apply F; [cbn [r_left]; solve_free sfr|reflexivity]|]).
      apply (says_this _ _ (Rule (Suffix Any) Join Any)). split; [exists (b' ++ [y]), []; split; [rewrite app_nil_r; reflexivity|constructor]|exists [], a'; split; [reflexivity|constructor]].
  Qed.
  Lemma s_exp : forall cps segs, segmentation sentence_decides cps segs -> segmentation sentence_decides (decompose cps) (map decompose segs).
  Proof.
    apply (seg_exp jamo sp dec_other dec_sp).
    - intros b a. unfold sentence_decides. rewrite (last_exp jamo sp dec_other dec_sp ignored para_sep (fun c H => proj2 (s_keep c H))).
      rewrite !(reduce_exp jamo sp dec_other dec_sp ignored para_sep (fun c H => proj1 (s_keep c H)) (fun c H => proj2 (s_keep c H))).
      rewrite <- !(says_exp jamo sp dec_other dec_sp sentence_rules_1 b a _ srules_1_ok), <- (says_exp jamo sp dec_other dec_sp sentence_rules_2 _ _ _ srules_2_ok). reflexivity.
    - intros b x a j1 j2 E N1 N2 X. destruct (inner_class x j1 j2 E N1 N2) as (k & y & z & r & -> & -> & Y & Z & _). rewrite app_assoc in X. exact (SentencesConform.s_disjoint _ _ X (s_inner _ _ y z Y Z)).
  Qed.
End S.
