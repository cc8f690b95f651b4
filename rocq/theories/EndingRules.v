(** The rules of the four packages and the ways to end a line. *)
From Verif Require Import Base ListFacts SpecUcd SpecRules SegFacts RuleFacts SpecEndings EndingFacts EndingSeg.
From Verif Require SpecGraphemes SpecWords SpecSentences Lines.
Local Open Scope N_scope.

Lemma range_only : forall A (P : A -> bool) d t n c, P d = false -> forallb (fun e : N * N * A => let '(lo, hi, v) := e in negb (P v) || ((lo =? n) && (hi =? n))) t = true -> P (range_value d t c) = true -> c = n.
Proof.
  intros A P d t n c Hd. induction t as [|((lo, hi), v) t IH]; cbn [forallb range_value]; intros F H; [congruence|]. apply andb_prop in F. destruct F as (F1 & F2). destruct ((lo <=? c) && (c <=? hi)) eqn:E; [|exact (IH F2 H)].
  rewrite H in F1. cbn [negb orb] in F1. apply andb_prop in F1. destruct F1 as (A1 & A2). apply N.eqb_eq in A1, A2. apply andb_prop in E. destruct E as (E1 & E2). apply N.leb_le in E1, E2. lia.
Qed.

(** The rules on CR LF and on line ends, which come first. *)
Section First.
  Variables (cr lf e : N -> bool) (E : re) (rest : list rule).
  Hypothesis cr_only : forall c, cr c = true -> c = 13.
  Hypothesis lf_only : forall c, lf c = true -> c = 10.
  Hypothesis cr_13 : cr 13 = true.
  Hypothesis lf_10 : lf 10 = true.
  Hypothesis se : single E e.
  Hypothesis e_ends : forallb e line_ends = true.
  Notation crlf_rule := (Rule (Suffix (Cls cr)) Join (Cls lf)).
  Notation after_rule := (Rule (Suffix E) Break Any).
  Notation before_rule := (Rule (Suffix Any) Break E).
  Lemma e_at : forall c, ends_line c = true -> e c = true.
  Proof. intros c H. exact (proj1 (forallb_forall _ _) e_ends c (in_enders c H)). Qed.
  Lemma not_crlf : forall b x a, ~ (x = 13 /\ hd_error a = Some 10) -> ~ applies crlf_rule (b ++ [x]) a.
  Proof.
    intros b x a H (A & B). cbn [r_left r_right left_applies] in *. apply (ends_single _ _ (single_cls cr)) in A. apply H. split; [exact (cr_only x A)|]. destruct a as [|y a]; [destruct (starts_single_nil _ _ (single_cls lf) B)|]. apply (starts_single _ _ (single_cls lf)) in B. rewrite (lf_only y B). reflexivity.
  Qed.
  Lemma first_after : forall b x a, e x = true -> ~ (x = 13 /\ hd_error a = Some 10) -> says (b ++ [x]) a (crlf_rule :: after_rule :: rest) (Some Break).
  Proof. intros b x a H N1. apply says_next; [exact (not_crlf b x a N1)|]. apply (says_this _ _ after_rule). split; [apply (ends_single E e se); exact H|apply starts_any]. Qed.
  Lemma first_crlf : forall b a, says (b ++ [13]) (10 :: a) (crlf_rule :: rest) (Some Join).
  Proof. intros b a. apply (says_this _ _ crlf_rule). split; [apply (ends_single _ _ (single_cls cr)); exact cr_13|apply (starts_single _ _ (single_cls lf)); exact lf_10]. Qed.
  Lemma first_before : forall b y k w, ends_line k = true -> y <> 13 -> says (b ++ [y]) (k :: w) (crlf_rule :: after_rule :: before_rule :: rest) (Some Break).
  Proof.
    intros b y k w H N1. apply says_next; [apply not_crlf; tauto|]. destruct (e y) eqn:Ey.
    - apply (says_this _ _ after_rule). split; [apply (ends_single E e se); exact Ey|apply starts_any].
    - apply says_next; [intros (A & _); cbn [r_left left_applies] in A; apply (ends_single E e se) in A; congruence|]. apply (says_this _ _ before_rule). split; [apply ends_any|apply (starts_single E e se); exact (e_at k H)].
  Qed.
End First.

Ltac singles := repeat first [apply single_cls|apply single_alt].
Ltac linel :=
  match goal with |- lineless ?r =>
    let r' := eval hnf in r in
    match r' with
    | Eps => exact I
    | Cls ?p => change (off p); match goal with H : off p |- _ => exact H | _ => vm_compute; reflexivity end
    | Cat ?a ?b => change (lineless a /\ lineless b); split; linel
    | Alt ?a ?b => change (lineless a /\ lineless b); split; linel
    | Star ?a => change (lineless a); linel
    end
  end.
Ltac rule_ok := split; cbn [r_left r_right];
  [first [solve [apply lok_lineless; linel]|solve [eapply lok_single; singles]|solve [linel]|solve [eapply lok_after; [apply single_cls|intros c H; apply in_enders in H; cbn in H; repeat destruct H as [<-|H]; try contradiction; vm_compute; reflexivity|linel]]|solve [eapply lok_opt; [singles|linel]]]
  |first [solve [apply rok_lineless; linel]|solve [eapply rok_single; singles]]].

Section G.
  Import SpecGraphemes.
  Lemma g_rules : Forall okrule grapheme_rules.
  Proof. unfold grapheme_rules. repeat (apply Forall_cons; [rule_ok|]). apply Forall_nil. Qed.
  Lemma g_cr : forall c, gc GCB_CR c = true -> c = 13.
  Proof. intros c. apply (range_only gcb (fun k => gcb_beq k GCB_CR)); [reflexivity|vm_compute; reflexivity]. Qed.
  Lemma g_lf : forall c, gc GCB_LF c = true -> c = 10.
  Proof. intros c. apply (range_only gcb (fun k => gcb_beq k GCB_LF)); [reflexivity|vm_compute; reflexivity]. Qed.
  Definition g_end := fun c => gc GCB_Control c || (gc GCB_CR c || gc GCB_LF c).
  Lemma g_single : single (Alt Control (Alt CR LF)) g_end. Proof. unfold g_end. singles. Qed.
  Lemma g_unix : forall t segs, segmentation grapheme_decides t segs -> segmentation grapheme_decides (unix t) (map unix segs).
  Proof.
    apply seg_unix; unfold grapheme_decides.
    - intros u X Y b a EX EY N1. exact (says_left _ u X Y b a _ g_rules EX EY N1).
    - intros b a X Y v EX EY N1. exact (says_right _ b a X Y v _ g_rules EX EY N1).
    - intros b x a H _ N1. apply (first_after _ _ g_end _ _ g_cr g_lf g_single); [|exact N1]. apply (e_at g_end); [vm_compute; reflexivity|exact H].
    - intros b a H. pose proof (first_crlf (gc GCB_CR) (gc GCB_LF) (tl grapheme_rules) ltac:(vm_compute; reflexivity) ltac:(vm_compute; reflexivity) b a) as J. pose proof (says_fun _ _ _ _ _ H J). discriminate.
    - intros b y h k v w _ Hk Ny _. apply (first_before _ _ g_end _ _ g_cr g_lf g_single); [vm_compute; reflexivity|exact Hk|exact Ny].
  Qed.
End G.
Section W.
  Import SpecWords.
  Lemma w_rules_1 : Forall okrule word_rules_1.
  Proof. unfold word_rules_1. repeat (apply Forall_cons; [rule_ok|]). apply Forall_nil. Qed.
  Lemma w_cr : forall c, wc WB_CR c = true -> c = 13.
  Proof. intros c. apply (range_only wb (fun k => wb_beq k WB_CR)); [reflexivity|vm_compute; reflexivity]. Qed.
  Lemma w_lf : forall c, wc WB_LF c = true -> c = 10.
  Proof. intros c. apply (range_only wb (fun k => wb_beq k WB_LF)); [reflexivity|vm_compute; reflexivity]. Qed.
  Definition w_end := fun c => wc WB_Newline c || (wc WB_CR c || wc WB_LF c).
  Lemma w_single : single (Alt Newline (Alt CR LF)) w_end. Proof. unfold w_end. singles. Qed.
  Lemma w_ign : off ignored. Proof. vm_compute. reflexivity. Qed.
  Lemma w_keeps : forallb line_end line_ends = true. Proof. vm_compute. reflexivity. Qed.

  Variable al : N -> bool. Variable more : list rule.
  Hypothesis al_off : off al.
  Hypothesis more_ok : Forall okrule more.
  Lemma w_rules_2 : Forall okrule (word_rules_2 al more).
  Proof.
    unfold word_rules_2. pose proof al_off as A. apply Forall_app. split.
    - repeat (apply Forall_cons; [rule_ok|]). apply Forall_nil.
    - apply Forall_app. split; [exact more_ok|]. apply Forall_cons; [rule_ok|apply Forall_nil].
  Qed.
  Lemma like_left : forall u X Y b a o, ender X -> ender Y -> b <> [] -> word_like al more (u ++ X ++ b) a o -> word_like al more (u ++ Y ++ b) a o.
  Proof.
    intros u X Y b a o EX EY N1 [H|(H1 & H2)]; [left; exact (says_left _ u X Y b a _ w_rules_1 EX EY N1 H)|right]. split; [exact (says_left _ u X Y b a _ w_rules_1 EX EY N1 H1)|].
    rewrite !(reduce_mid ignored line_end w_ign w_keeps) in * by assumption. pose proof (reduce_first ignored line_end w_keeps b N1) as N2.
    assert (L : forall Z, last_char (u ++ Z ++ b) = last_char b) by (intros Z; rewrite app_assoc; apply Lines.last_app_r; exact N1). rewrite L in *. exact (says_left _ _ X Y _ _ _ w_rules_2 EX EY N2 H2).
  Qed.
  Lemma like_right : forall b a X Y v o, ender X -> ender Y -> a <> [] -> word_like al more b (a ++ X ++ v) o -> word_like al more b (a ++ Y ++ v) o.
  Proof.
    intros b a X Y v o EX EY N1 [H|(H1 & H2)]; [left; exact (says_right _ b a X Y v _ w_rules_1 EX EY N1 H)|right]. split; [exact (says_right _ b a X Y v _ w_rules_1 EX EY N1 H1)|].
    rewrite !(reduce_mid ignored line_end w_ign w_keeps) in * by assumption. apply (says_right _ _ _ X Y _ _ w_rules_2 EX EY); [|exact H2].
    destruct a as [|c a]; [contradiction|]. cbn [reduce]. destruct (ignored c) eqn:I; [|discriminate]. exfalso. apply says_none_not in H1. unfold word_rules_1 in H1. do 5 apply Forall_inv_tail in H1. apply Forall_inv in H1. apply H1. split; [apply ends_any|]. cbn [app r_right]. apply (starts_single _ _ (single_cls ignored)). exact I.
  Qed.
  Lemma like_unix : forall t segs, segmentation (word_like al more) t segs -> segmentation (word_like al more) (unix t) (map unix segs).
  Proof.
    apply seg_unix.
    - intros u X Y b a EX EY N1. exact (like_left u X Y b a _ EX EY N1).
    - intros b a X Y v EX EY N1. exact (like_right b a X Y v _ EX EY N1).
    - intros b x a H _ N1. left. apply (first_after _ _ w_end _ _ w_cr w_lf w_single); [|exact N1]. apply (e_at w_end); [vm_compute; reflexivity|exact H].
    - intros b a H. pose proof (first_crlf (wc WB_CR) (wc WB_LF) (tl word_rules_1) ltac:(vm_compute; reflexivity) ltac:(vm_compute; reflexivity) b a) as J. destruct H as [H|(H & _)]; pose proof (says_fun _ _ _ _ _ H J); discriminate.
    - intros b y h k v w _ Hk Ny _. left. apply (first_before _ _ w_end _ _ w_cr w_lf w_single); [vm_compute; reflexivity|exact Hk|exact Ny].
  Qed.
End W.
Lemma w_unix : forall t segs, segmentation SpecWords.word_decides t segs -> segmentation SpecWords.word_decides (unix t) (map unix segs).
Proof. apply like_unix; [vm_compute; reflexivity|constructor]. Qed.
Lemma p_unix : forall t segs, segmentation SpecWords.phrase_decides t segs -> segmentation SpecWords.phrase_decides (unix t) (map unix segs).
Proof. apply like_unix; [vm_compute; reflexivity|]. apply Forall_cons; [rule_ok|constructor]. Qed.

Section S.
  Import SpecSentences.
  Lemma s_rules_1 : Forall okrule sentence_rules_1.
  Proof. unfold sentence_rules_1. repeat (apply Forall_cons; [rule_ok|]). apply Forall_nil. Qed.
  Lemma s_rules_2 : Forall okrule sentence_rules_2.
  Proof. unfold sentence_rules_2. repeat (apply Forall_cons; [rule_ok|]). apply Forall_nil. Qed.
  Lemma s_cr : forall c, sc SB_CR c = true -> c = 13.
  Proof. intros c. apply (range_only sb (fun k => sb_beq k SB_CR)); [reflexivity|vm_compute; reflexivity]. Qed.
  Lemma s_lf : forall c, sc SB_LF c = true -> c = 10.
  Proof. intros c. apply (range_only sb (fun k => sb_beq k SB_LF)); [reflexivity|vm_compute; reflexivity]. Qed.
  Definition s_end := fun c => sc SB_Sep c || (sc SB_CR c || sc SB_LF c).
  Lemma s_single : single ParaSep s_end. Proof. unfold s_end, ParaSep. singles. Qed.
  Lemma s_ign : off ignored. Proof. vm_compute. reflexivity. Qed.
  Lemma s_keeps : forallb para_sep line_ends = true. Proof. vm_compute. reflexivity. Qed.
  Lemma s_left : forall u X Y b a o, ender X -> ender Y -> b <> [] -> sentence_decides (u ++ X ++ b) a o -> sentence_decides (u ++ Y ++ b) a o.
  Proof.
    intros u X Y b a o EX EY N1 [H|(H1 & H2)]; [left; exact (says_left _ u X Y b a _ s_rules_1 EX EY N1 H)|right]. split; [exact (says_left _ u X Y b a _ s_rules_1 EX EY N1 H1)|].
    rewrite !(reduce_mid ignored para_sep s_ign s_keeps) in * by assumption. pose proof (reduce_first ignored para_sep s_keeps b N1) as N2.
    assert (L : forall Z, last_char (u ++ Z ++ b) = last_char b) by (intros Z; rewrite app_assoc; apply Lines.last_app_r; exact N1). rewrite L in *. exact (says_left _ _ X Y _ _ _ s_rules_2 EX EY N2 H2).
  Qed.
  Lemma s_right : forall b a X Y v o, ender X -> ender Y -> a <> [] -> sentence_decides b (a ++ X ++ v) o -> sentence_decides b (a ++ Y ++ v) o.
  Proof.
    intros b a X Y v o EX EY N1 [H|(H1 & H2)]; [left; exact (says_right _ b a X Y v _ s_rules_1 EX EY N1 H)|right]. split; [exact (says_right _ b a X Y v _ s_rules_1 EX EY N1 H1)|].
    rewrite !(reduce_mid ignored para_sep s_ign s_keeps) in * by assumption. apply (says_right _ _ _ X Y _ _ s_rules_2 EX EY); [|exact H2].
    destruct a as [|c a]; [contradiction|]. cbn [reduce]. destruct (ignored c) eqn:I; [|discriminate]. exfalso. apply says_none_not in H1. unfold sentence_rules_1 in H1. do 2 apply Forall_inv_tail in H1. apply Forall_inv in H1. apply H1. split; [apply ends_any|]. cbn [app r_right]. apply (starts_single _ _ (single_cls ignored)). exact I.
  Qed.
  Lemma breaks_by : forall b a r1 r2 r3 r4 r5 r6 r7, says b a [Rule (fst r1) Join (snd r1); Rule (fst r2) Join (snd r2); Rule (fst r3) Join (snd r3); Rule (fst r4) Join (snd r4); Rule (fst r5) Join (snd r5); Rule (fst r6) Join (snd r6); Rule (fst r7) Break (snd r7); Rule (Suffix Any) Join Any] (Some Break) ->
    ~ applies (Rule (fst r6) Join (snd r6)) b a /\ applies (Rule (fst r7) Break (snd r7)) b a.
  Proof.
    intros b a r1 r2 r3 r4 r5 r6 r7 H. do 5 (inversion H as [|? ? A|? ? ? A H']; subst; clear H; rename H' into H; clear A). inversion H as [|? ? A|? ? ? A6 H7]; subst. split; [exact A6|].
    inversion H7 as [|? ? A|? ? ? A7 H8]; subst; [exact A|]. inversion H8 as [|? ? A|? ? ? A8 H9]; subst. destruct A8. split; [apply ends_any|apply starts_any].
  Qed.
  Lemma s_before : forall b y h k v w, ends_line h = true -> ends_line k = true -> y <> 13 -> sentence_decides (b ++ [y]) (h :: v) Break -> sentence_decides (b ++ [y]) (k :: w) Break.
  Proof.
    intros b y h k v w Hh Hk Ny H. destruct (s_end y) eqn:Ey.
    - left. apply (first_after _ _ s_end _ _ s_cr s_lf s_single); [exact Ey|tauto].
    - exfalso. assert (Eh : s_end h = true) by (apply (e_at s_end); [vm_compute; reflexivity|exact Hh]). destruct H as [H|(H1 & H2)].
      + inversion H as [|? ? A|? ? ? A H']; subst. inversion H' as [|? ? A1|? ? ? A1 H'']; subst.
        * destruct A1 as (A1 & _). cbn [r_left left_applies] in A1. apply (ends_single _ _ s_single) in A1. congruence.
        * inversion H'' as [|? ? A2|? ? ? A2 H3]; subst. inversion H3.
      + pose proof (off_at ignored h s_ign Hh) as Ih. cbn [reduce] in H2. rewrite Ih in H2. cbn [andb] in H2. unfold sentence_rules_2 in H2.
        pose proof (breaks_by _ _ (_, _) (_, _) (_, _) (_, _) (_, _) (_, _) (_, _) H2) as (A10 & A11). cbn [fst snd] in A10, A11. destruct A11 as (A11 & _). cbn [r_left left_applies] in A11. apply ends_cat_opt in A11. destruct A11 as [A11|A11].
        * apply A10. split; [exact A11|]. cbn [r_right]. apply (starts_single _ (fun c => sc SB_Sp c || s_end c)); [apply single_alt; [apply single_cls|exact s_single]|]. rewrite Eh. apply orb_true_r.
        * destruct (reduce ignored para_sep None (b ++ [y])) as [|z l] eqn:R using rev_ind; [exact (ends_cat_single_nil _ _ s_single _ A11)|]. apply (ends_cat_single _ _ s_single) in A11. destruct A11 as (A11 & _).
          assert (PS : forall c, para_sep c = s_end c) by (intros c; unfold para_sep, s_end; rewrite <- orb_assoc; reflexivity).
          apply (reduce_ends ignored para_sep (b ++ [y]) None) with (b' := l) (y := z); [|exact R|rewrite PS; exact A11]. rewrite Lines.last_app_r by discriminate. cbn [last_char]. rewrite PS. exact Ey.
  Qed.
  Lemma s_unix : forall t segs, segmentation sentence_decides t segs -> segmentation sentence_decides (unix t) (map unix segs).
  Proof.
    apply seg_unix.
    - intros u X Y b a EX EY N1. exact (s_left u X Y b a _ EX EY N1).
    - intros b a X Y v EX EY N1. exact (s_right b a X Y v _ EX EY N1).
    - intros b x a H _ N1. left. apply (first_after _ _ s_end _ _ s_cr s_lf s_single); [|exact N1]. apply (e_at s_end); [vm_compute; reflexivity|exact H].
    - intros b a H. pose proof (first_crlf (sc SB_CR) (sc SB_LF) (tl sentence_rules_1) ltac:(vm_compute; reflexivity) ltac:(vm_compute; reflexivity) b a) as J. destruct H as [H|(H & _)]; pose proof (says_fun _ _ _ _ _ H J); discriminate.
    - exact s_before.
  Qed.
End S.
