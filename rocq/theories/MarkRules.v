(** Marks and the rules of the four packages. *)
From Verif Require Import Base ListFacts SpecUcd SpecRules SpecSame SpecMarks HangulFacts MarkFacts.
From Verif Require SpecGraphemes SpecWords SpecSentences GraphemesConform WordsConform SentencesConform PhrasesConform.

Ltac solve_one := lazymatch goal with
  | |- one (Cls _) _ => apply one_cls
  | |- one (Alt _ _) _ => eapply one_alt; solve_one
  | |- one ?r ?p => let r' := eval hnf in r in change (one r' p); solve_one
  end.
Ltac rok := lazymatch goal with
  | |- rokm _ _ Eps => apply rokm_eps
  | |- rokm _ _ (Cls _) => eapply rokm_one; solve_one
  | |- rokm _ _ (Alt _ _) => eapply rokm_one; solve_one
  | |- rokm ?m ?t ?r => let r' := eval hnf in r in change (rokm m t r'); rok
  end.

Section G.
  Import SpecGraphemes.
  Ltac gt := let c := fresh "c" in let H := fresh "H" in intros c H; destruct H as (H & _); cbv beta; unfold gc; rewrite H; reflexivity.
  Ltac lone := eapply lokm_one; [solve_one|gt|gt].
  Lemma ri_hard : forall w, matches (Cat (Star (Cat RI RI)) RI) w -> Forall (hard mark takes_marks) w.
  Proof.
    assert (H : forall c, gc GCB_Regional_Indicator c = true -> hard mark takes_marks c).
    { intros c H. split; intros (X & _); unfold gc in H; rewrite X in H; discriminate. }
    assert (S2 : forall w, matches (Star (Cat RI RI)) w -> Forall (hard mark takes_marks) w).
    { intros w M. remember (Star (Cat RI RI)) as r. induction M; try discriminate; [constructor|]. injection Heqr as ->. apply Forall_app. split; [|exact (IHM2 eq_refl)].
      inversion M1 as [| |r s t1 u1 A1 A2| | | |]; subst. inversion A1; subst. inversion A2; subst. repeat constructor; apply H; assumption. }
    intros w M. inversion M as [| |r s t u M1 M2| | | |]; subst. apply Forall_app. split; [exact (S2 _ M1)|]. inversion M2; subst. repeat constructor; apply H; assumption.
  Qed.
  Lemma g_okm : Forall (okm mark takes_marks) grapheme_rules.
  Proof.
    unfold grapheme_rules. repeat (first [apply Forall_nil|apply Forall_cons]); (split; cbn [r_left r_right]; [|rok]).
    - lone.
    - lone.
    - apply lokm_eps.
    - lone.
    - lone.
    - lone.
    - apply lokm_eps.
    - apply lokm_eps.
    - lone.
    - unfold Consonant, ExtOrLinker, Linker. eapply lokm_chain; [solve_one| | |].
      + intros c (A & I & _). cbv beta. unfold ic. rewrite I. auto.
      + intros c (_ & N1 & N2 & _). cbv beta. unfold ic. destruct (InCB c); try congruence; auto.
      + intros w M. eapply Forall_impl; [|apply (proj1 (star_one (Alt InCBExtend (Cls (ic InCB_Linker))) (fun c => ic InCB_Extend c || ic InCB_Linker c) (one_alt _ _ _ _ (one_cls _) (one_cls _)) w)); exact M]. cbv beta.
        intros c E (_ & N1 & N2 & _). unfold ic in E. destruct (InCB c); try congruence; discriminate.
    - unfold ExtPict_, ZWJ. eapply lokm_chain0; [solve_one| |].
      + intros c (A & _ & _ & _ & P). unfold gc. rewrite A. auto.
      + intros c (A & _). unfold gc. rewrite A. auto.
    - exact ri_hard.
    - unfold NotRI. apply lokm_after; [gt|gt|exact ri_hard].
    - apply lokm_eps.
  Qed.
  Lemma g_inner : forall b y m a, takes_marks y \/ mark y -> mark m -> grapheme_decides (b ++ [y]) (m :: a) Join.
  Proof.
    intros b y m a Hy (Gm & _). assert (Ky : GCB y = GCB_Other \/ GCB y = GCB_Extend) by (destruct Hy as [(Y & _)|(Y & _)]; auto). unfold grapheme_decides, grapheme_rules.
    assert (EN : forall r p, one r p -> p y = false -> ~ left_applies (Suffix r) (b ++ [y])) by (intros r p O E X; apply (ends_one r p O) in X; congruence).
    assert (SN : forall r p, one r p -> p m = false -> ~ starts_with r (m :: a)) by (intros r p O E X; apply (starts_one r p O) in X; congruence).
    Ltac no_left EN Ky := apply says_next; [intros (X & _); revert X; eapply EN; [solve_one|]; cbv beta; unfold gc; destruct Ky as [E|E]; rewrite E; reflexivity|].
    no_left EN Ky. no_left EN Ky.
    apply says_next; [intros (_ & X); revert X; eapply SN; [solve_one|]; cbv beta; unfold gc; rewrite Gm; reflexivity|].
    no_left EN Ky. no_left EN Ky. no_left EN Ky.
    apply (says_this _ _ (Rule (Suffix Any) Join (Alt Extend ZWJ))). split; cbn [r_left r_right left_applies].
    + exists (b ++ [y]), []. split; [rewrite app_nil_r; reflexivity|constructor].
    + eapply starts_one; [solve_one|]. unfold gc. rewrite Gm. reflexivity.
  Qed.
  Lemma g_marks : forall t segs, Forall (ok mark takes_marks) t -> segmentation grapheme_decides (B t) segs ->
    exists gs, concat gs = t /\ segs = map B gs /\ segmentation grapheme_decides (D t) (map D gs).
  Proof.
    apply seg_marks.
    - intros b a Fb Fa. apply (says_marks mark takes_marks); auto. exact g_okm.
    - intros b y m a Hy Hm X. exact (GraphemesConform.g_disjoint _ _ X (g_inner b y m a Hy Hm)).
  Qed.
End G.

(** Of marks and the characters that take them, words, phrases and sentences need less. *)
Definition w_mark (c : N) : Prop := WB c = WB_Extend.
Definition w_takes (c : N) : Prop := ~ In (WB c) [WB_CR; WB_LF; WB_Newline; WB_ZWJ; WB_WSegSpace].
Definition s_mark (c : N) : Prop := SB c = SB_Extend.
Definition s_takes (c : N) : Prop := ~ In (SB c) [SB_Sep; SB_CR; SB_LF].
Lemma ok_w : forall t, Forall (ok mark takes_marks) t -> Forall (ok w_mark w_takes) t.
Proof. intros t. apply Forall_impl. intros (c & ms) (T & M). split; [destruct T as [T|(_ & _ & _ & T & _)]; [left; exact T|right; exact T]|]. eapply Forall_impl; [|exact M]. intros m (_ & _ & W & _). exact W. Qed.
Lemma ok_s : forall t, Forall (ok mark takes_marks) t -> Forall (ok s_mark s_takes) t.
Proof. intros t. apply Forall_impl. intros (c & ms) (T & M). split; [destruct T as [T|(_ & _ & _ & _ & T)]; [left; exact T|right; exact T]|]. eapply Forall_impl; [|exact M]. intros m (_ & _ & _ & W & _). exact W. Qed.

Section W.
  Import SpecWords.
  Lemma takes_wb : forall c, w_takes c -> forall k, In k [WB_CR; WB_LF; WB_Newline; WB_ZWJ; WB_WSegSpace] -> wc k c = false.
  Proof. intros c N k I. unfold w_takes in N. unfold wc. destruct (wb_beq (WB c) k) eqn:E; [|reflexivity]. apply internal_wb_dec_bl in E. subst k. contradiction. Qed.
  Ltac wt := let c := fresh "c" in let H := fresh "H" in intros c H; cbv beta; rewrite ?(takes_wb c H) by (cbn; auto 6); reflexivity.
  Ltac wm := let c := fresh "c" in let H := fresh "H" in intros c H; unfold w_mark in H; cbv beta; unfold wc; rewrite H; reflexivity.
  Ltac lone := eapply lokm_one; [solve_one|wt|wm].
  Lemma rules_1_okm : Forall (okm w_mark w_takes) word_rules_1.
  Proof.
    unfold word_rules_1. repeat (first [apply Forall_nil|apply Forall_cons]); (split; cbn [r_left r_right]; [|rok]); try (apply lokm_eps); lone.
  Qed.
  Lemma mark_w : forall c, w_mark c -> ignored c = true /\ line_end c = false.
  Proof. intros c W. unfold w_mark in W. unfold ignored, line_end, wc. rewrite W. split; reflexivity. Qed.
  Lemma takes_w : forall c, w_takes c -> line_end c = false.
  Proof. intros c H. unfold line_end. rewrite !(takes_wb c H) by (cbn; auto 6). reflexivity. Qed.
  Lemma like_inner : forall al more b y m a, w_takes y \/ w_mark y -> w_mark m -> word_like al more (b ++ [y]) (m :: a) Join.
  Proof.
    intros al more b y m a Hy Hm. left. pose proof Hm as Wm. unfold w_mark in Wm. unfold word_rules_1.
    assert (Ky : forall k, In k [WB_CR; WB_LF; WB_Newline; WB_ZWJ; WB_WSegSpace] -> wc k y = false).
    { intros k I. destruct Hy as [Hy|Wy]; [exact (takes_wb y Hy k I)|]. unfold w_mark in Wy. unfold wc. rewrite Wy. cbn in I. destruct I as [<-|[<-|[<-|[<-|[<-|[]]]]]]; reflexivity. }
    assert (EN : forall r p, one r p -> p y = false -> ~ left_applies (Suffix r) (b ++ [y])) by (intros r p O E X; apply (ends_one r p O) in X; congruence).
    assert (SN : forall r p, one r p -> p m = false -> ~ starts_with r (m :: a)) by (intros r p O E X; apply (starts_one r p O) in X; congruence).
    apply says_next; [intros (X & _); revert X; eapply EN; [solve_one|]; cbv beta; rewrite !Ky by (cbn; auto 6); reflexivity|].
    apply says_next; [intros (X & _); revert X; eapply EN; [solve_one|]; cbv beta; rewrite !Ky by (cbn; auto 6); reflexivity|].
    apply says_next; [intros (_ & X); revert X; eapply SN; [solve_one|]; cbv beta; unfold wc; rewrite Wm; reflexivity|].
    apply says_next; [intros (X & _); revert X; eapply EN; [solve_one|]; cbv beta; rewrite !Ky by (cbn; auto 6); reflexivity|].
    apply says_next; [intros (X & _); revert X; eapply EN; [solve_one|]; cbv beta; rewrite !Ky by (cbn; auto 6); reflexivity|].
    apply (says_this _ _ (Rule (Suffix Any) Join Ignored)). split; cbn [r_left r_right left_applies].
    + exists (b ++ [y]), []. split; [rewrite app_nil_r; reflexivity|constructor].
    + apply (starts_one Ignored ignored (one_cls _)). exact (proj1 (mark_w m Hm)).
  Qed.
  Lemma like_says : forall al more b a, Forall (ok w_mark w_takes) b -> Forall (ok w_mark w_takes) a -> word_like al more (B b) (B a) Break <-> word_like al more (D b) (D a) Break.
  Proof.
    intros al more b a Fb Fa. unfold word_like. rewrite (last_marks w_mark w_takes ignored line_end (fun c H => proj2 (mark_w c H)) takes_w b _ Fb).
    rewrite !(reduce_marks w_mark w_takes ignored line_end (fun c H => proj1 (mark_w c H)) (fun c H => proj2 (mark_w c H)) takes_w) by assumption.
    rewrite !(says_marks w_mark w_takes word_rules_1 b a _ rules_1_okm Fb Fa). reflexivity.
  Qed.
  Lemma like_marks : forall al more, (forall b a, word_like al more b a Break -> word_like al more b a Join -> False) -> forall t segs, Forall (ok mark takes_marks) t -> segmentation (word_like al more) (B t) segs ->
    exists gs, concat gs = t /\ segs = map B gs /\ segmentation (word_like al more) (D t) (map D gs).
  Proof.
    intros al more DJ t segs F. apply (seg_marks w_mark w_takes); [apply like_says| |exact (ok_w t F)].
    intros b y m a Hy Hm X. exact (DJ _ _ X (like_inner al more b y m a Hy Hm)).
  Qed.
End W.

Section S.
  Import SpecSentences.
  Lemma takes_sb : forall c, s_takes c -> forall k, In k [SB_Sep; SB_CR; SB_LF] -> sc k c = false.
  Proof. intros c N k I. unfold s_takes in N. unfold sc. destruct (sb_beq (SB c) k) eqn:E; [|reflexivity]. apply internal_sb_dec_bl in E. subst k. contradiction. Qed.
  Ltac st := let c := fresh "c" in let H := fresh "H" in intros c H; cbv beta; rewrite ?(takes_sb c H) by (cbn; auto 6); reflexivity.
  Ltac sm := let c := fresh "c" in let H := fresh "H" in intros c H; unfold s_mark in H; cbv beta; unfold sc; rewrite H; reflexivity.
  Lemma srules_1_okm : Forall (okm s_mark s_takes) sentence_rules_1.
  Proof.
    unfold sentence_rules_1. repeat (first [apply Forall_nil|apply Forall_cons]); (split; cbn [r_left r_right]; [|rok]); try (apply lokm_eps); (eapply lokm_one; [solve_one|st|sm]).
  Qed.
  Lemma mark_s : forall c, s_mark c -> ignored c = true /\ para_sep c = false.
  Proof. intros c W. unfold s_mark in W. unfold ignored, para_sep, sc. rewrite W. split; reflexivity. Qed.
  Lemma takes_s : forall c, s_takes c -> para_sep c = false.
  Proof. intros c H. unfold para_sep. rewrite !(takes_sb c H) by (cbn; auto 6). reflexivity. Qed.
  Lemma s_inner : forall b y m a, s_takes y \/ s_mark y -> s_mark m -> sentence_decides (b ++ [y]) (m :: a) Join.
  Proof.
    intros b y m a Hy Hm. left. unfold sentence_rules_1.
    assert (Ky : forall k, In k [SB_Sep; SB_CR; SB_LF] -> sc k y = false).
    { intros k I. destruct Hy as [Hy|Wy]; [exact (takes_sb y Hy k I)|]. unfold s_mark in Wy. unfold sc. rewrite Wy. cbn in I. destruct I as [<-|[<-|[<-|[]]]]; reflexivity. }
    assert (EN : forall r p, one r p -> p y = false -> ~ left_applies (Suffix r) (b ++ [y])) by (intros r p O E X; apply (ends_one r p O) in X; congruence).
    apply says_next; [intros (X & _); revert X; eapply EN; [solve_one|]; cbv beta; rewrite !Ky by (cbn; auto 6); reflexivity|].
    apply says_next; [intros (X & _); revert X; eapply EN; [solve_one|]; cbv beta; rewrite !Ky by (cbn; auto 6); reflexivity|].
    apply (says_this _ _ (Rule (Suffix Any) Join Ignored)). split; cbn [r_left r_right left_applies].
    + exists (b ++ [y]), []. split; [rewrite app_nil_r; reflexivity|constructor].
    + apply (starts_one Ignored ignored (one_cls _)). exact (proj1 (mark_s m Hm)).
  Qed.
  Lemma s_says : forall b a, Forall (ok s_mark s_takes) b -> Forall (ok s_mark s_takes) a -> sentence_decides (B b) (B a) Break <-> sentence_decides (D b) (D a) Break.
  Proof.
    intros b a Fb Fa. unfold sentence_decides. rewrite (last_marks s_mark s_takes ignored para_sep (fun c H => proj2 (mark_s c H)) takes_s b _ Fb).
    rewrite !(reduce_marks s_mark s_takes ignored para_sep (fun c H => proj1 (mark_s c H)) (fun c H => proj2 (mark_s c H)) takes_s) by assumption.
    rewrite !(says_marks s_mark s_takes sentence_rules_1 b a _ srules_1_okm Fb Fa). reflexivity.
  Qed.
  Lemma s_marks : forall t segs, Forall (ok mark takes_marks) t -> segmentation sentence_decides (B t) segs ->
    exists gs, concat gs = t /\ segs = map B gs /\ segmentation sentence_decides (D t) (map D gs).
  Proof.
    intros t segs F. apply (seg_marks s_mark s_takes); [exact s_says| |exact (ok_s t F)].
    intros b y m a Hy Hm X. exact (SentencesConform.s_disjoint _ _ X (s_inner b y m a Hy Hm)).
  Qed.
End S.
