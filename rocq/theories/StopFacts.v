(** How sentences end. *)
From Verif Require Import Base ListFacts SpecUtf8 SpecIter SpecRules SpecUcd SpecSentences SpecStop RuleFacts WordFacts.

Lemma sc_iff : forall k c, sc k c = true <-> SB c = k.
Proof. intros k c. unfold sc. split; [apply internal_sb_dec_bl|apply internal_sb_dec_lb]. Qed.
Lemma sep_iff : forall c, para_sep c = true <-> separator c.
Proof. intros c. unfold para_sep, separator. rewrite !orb_true_iff, !sc_iff. tauto. Qed.
Lemma smark_iff : forall c, ignored c = true <-> s_mark c.
Proof. intros c. unfold ignored, s_mark. rewrite !orb_true_iff, !sc_iff. tauto. Qed.
Lemma single_sat : single SATerm (fun c => sc SB_STerm c || sc SB_ATerm c).
Proof. apply single_alt; apply single_cls. Qed.
Lemma single_para : single ParaSep (fun c => sc SB_Sep c || (sc SB_CR c || sc SB_LF c)).
Proof. apply single_alt; [apply single_cls|apply single_alt; apply single_cls]. Qed.

Section Reduce.
  Variables ign keep : N -> bool.
  Lemma reduce_lift : forall s p u c v, reduce ign keep p s = u ++ c :: v -> exists s1 s2, s = s1 ++ c :: s2 /\ reduce ign keep (Some c) s2 = v.
  Proof.
    induction s as [|x s IH]; intros p u c v E; [destruct u; discriminate E|]. cbn [reduce] in E. destruct (ign x && _).
    - destruct (IH _ _ _ _ E) as (s1 & s2 & -> & H). exists (x :: s1), s2. auto.
    - destruct u as [|y u]; injection E as -> E; [exists [], s; auto|]. destruct (IH _ _ _ _ E) as (s1 & s2 & -> & H). exists (y :: s1), s2. auto.
  Qed.
  Lemma reduce_split : forall s p u v, reduce ign keep p s = u ++ v -> exists s1 s2 q, s = s1 ++ s2 /\ reduce ign keep p s1 = u /\ reduce ign keep q s2 = v.
  Proof.
    induction s as [|x s IH]; intros p u v E.
    - symmetry in E. apply app_eq_nil in E as [-> ->]. exists [], [], None. auto.
    - destruct u as [|y u]; [exists [], (x :: s), p; auto|]. cbn [reduce] in E. destruct (ign x && _) eqn:K.
      + destruct (IH _ _ _ E) as (s1 & s2 & q & -> & H1 & H2). exists (x :: s1), s2, q. split; [reflexivity|]. split; [|exact H2]. cbn [reduce]. rewrite K. exact H1.
      + injection E as -> E. destruct (IH _ _ _ E) as (s1 & s2 & q & -> & H1 & H2). exists (y :: s1), s2, q. split; [reflexivity|]. split; [|exact H2]. cbn [reduce]. rewrite K, H1. reflexivity.
  Qed.
  Lemma reduce_forall : forall P s p, Forall P (reduce ign keep p s) -> Forall (fun c => P c \/ ign c = true) s.
  Proof.
    intros P. induction s as [|x s IH]; intros p F; [constructor|]. cbn [reduce] in F. destruct (ign x && _) eqn:K.
    - apply andb_true_iff in K as [K _]. constructor; [right; exact K|exact (IH _ F)].
    - inversion F; subst. constructor; [left; assumption|exact (IH _ H2)].
  Qed.
  Lemma reduce_some : forall c s, keep c = true -> reduce ign keep (Some c) s = [] -> s = [].
  Proof. intros c [|x s] K E; [reflexivity|]. cbn [reduce] in E. rewrite K in E. cbn [negb] in E. rewrite andb_false_r in E. discriminate E. Qed.
  (** The other direction, where nothing is kept. *)
  Lemma reduce_filter : forall s c, keep c = false -> Forall (fun x => keep x = false) s -> reduce ign keep (Some c) s = filter (fun x => negb (ign x)) s.
  Proof.
    induction s as [|x s IH]; intros c K F; [reflexivity|]. inversion F; subst. cbn [reduce filter]. rewrite K. cbn [negb]. rewrite andb_true_r, (IH x) by assumption. destruct (ign x); reflexivity.
  Qed.
End Reduce.

Lemma closing_lift : forall s2 q cl sp, reduce ignored para_sep q s2 = cl ++ sp -> Forall (fun c => sc SB_Close c = true) cl -> Forall (fun c => sc SB_Sp c = true) sp -> closing s2.
Proof.
  intros s2 q cl sp E F1 F2. destruct (reduce_split _ _ _ _ _ _ E) as (a & b & q' & -> & E1 & E2). exists a, b. split; [reflexivity|]. rewrite <- E1 in F1. rewrite <- E2 in F2.
  split; (eapply Forall_impl; [|eapply reduce_forall; eassumption]); intros c [H|H]; [left; apply sc_iff; exact H|right; apply smark_iff; exact H|left; apply sc_iff; exact H|right; apply smark_iff; exact H].
Qed.
(** A break comes after a separator, or after a terminator. *)
Theorem stop_break : forall s r, sentence_decides s r Break -> ends_separated s \/ ends_stopped s.
Proof.
  intros s r [H|[_ H]].
  - left. inversion H as [|? ? _|? ? ? _ H1]; subst; try discriminate. inversion H1 as [|? ? A E|? ? ? _ H2]; subst.
    + destruct A as [(b1 & b2 & -> & M) _]. apply single_para in M as (c & -> & K). exists b1, c. split; [reflexivity|]. apply sep_iff. unfold para_sep. rewrite <- orb_assoc. exact K.
    + inversion H2 as [|? ? _|? ? ? _ H3]; subst; try discriminate. inversion H3.
  - unfold sentence_rules_2 in H. do 6 (inversion H as [|? ? _|? ? ? _ H']; subst; clear H; rename H' into H).
    inversion H as [|? ? A E|? ? ? _ H2]; subst; [|inversion H2 as [|? ? _|? ? ? _ H3]; subst; inversion H3].
    destruct A as [(b1 & b2 & Eb & M) _]. cbn [r_left] in M. apply matches_cat in M as (m1 & m2 & -> & M & MO). apply matches_cat in M as (m3 & sp & -> & M & MS). apply matches_cat in M as (m4 & cl & -> & MT & MC).
    apply single_sat in MT as (t & -> & KT). apply (star_single _ _ (single_cls _)) in MC, MS. apply matches_opt in MO as [MO| ->].
    + apply single_para in MO as (c & -> & K). left. rewrite !app_assoc in Eb. destruct (reduce_lift _ _ _ _ _ _ _ Eb) as (s1 & s2 & -> & E2). assert (Kc : para_sep c = true) by (unfold para_sep; rewrite <- orb_assoc; exact K).
      apply reduce_some in E2; [|exact Kc]. subst s2. exists s1, c. split; [reflexivity|apply sep_iff; exact Kc].
    + right. rewrite app_nil_r, <- app_assoc in Eb. cbn [app] in Eb. destruct (reduce_lift _ _ _ _ _ _ _ Eb) as (s1 & s2 & -> & E2). exists s1, t, s2. split; [reflexivity|]. split; [|exact (closing_lift s2 _ cl sp E2 MC MS)].
      unfold terminator, full_stop. rewrite orb_true_iff, !sc_iff in KT. tauto.
Qed.

Lemma sc_no : forall k c, SB c <> k -> sc k c = false.
Proof. intros k c H. destruct (sc k c) eqn:E; [apply sc_iff in E; contradiction|reflexivity]. Qed.
Lemma term_red : forall p t cs, terminator t -> closing cs -> exists P cl sp, reduce ignored para_sep None (p ++ t :: cs) = P ++ t :: cl ++ sp /\ Forall (fun c => sc SB_Close c = true) cl /\ Forall (fun c => sc SB_Sp c = true) sp.
Proof.
  intros p t cs Ht (cl & sp & -> & F1 & F2). rewrite reduce_app. exists (reduce ignored para_sep None p), (filter (fun x => negb (ignored x)) cl), (filter (fun x => negb (ignored x)) sp).
  assert (NI : ignored t = false). { destruct (ignored t) eqn:E; [|reflexivity]. apply smark_iff in E. unfold s_mark, terminator, full_stop in *. intuition congruence. }
  assert (NK : forall c, SB c = SB_Close \/ SB c = SB_Sp \/ s_mark c \/ terminator c -> para_sep c = false).
  { intros c Q. destruct (para_sep c) eqn:E; [|reflexivity]. apply sep_iff in E. unfold separator, s_mark, terminator, full_stop in *. intuition congruence. }
  split; [|split].
  - f_equal. cbn [reduce]. rewrite NI. cbn [andb]. f_equal. rewrite reduce_filter; [apply filter_app|apply NK; auto|]. apply Forall_app. split; (eapply Forall_impl; [|eassumption]); intros c Q; cbv beta in Q; apply NK; tauto.
  - apply Forall_forall. intros c I. apply filter_In in I as [I K]. rewrite Forall_forall in F1. apply sc_iff. destruct (F1 c I) as [Q|Q]; [exact Q|]. apply smark_iff in Q. rewrite Q in K. discriminate K.
  - apply Forall_forall. intros c I. apply filter_In in I as [I K]. rewrite Forall_forall in F2. apply sc_iff. destruct (F2 c I) as [Q|Q]; [exact Q|]. apply smark_iff in Q. rewrite Q in K. discriminate K.
Qed.
Lemma ends_closing : forall T p P t cl sp, single T p -> p t = true -> Forall (fun c => sc SB_Close c = true) cl -> Forall (fun c => sc SB_Sp c = true) sp ->
  ends_with (Cat (Cat T (Star Close)) (Star Sp)) (P ++ t :: cl ++ sp).
Proof.
  intros T p P t cl sp S K F1 F2. exists P, (([t] ++ cl) ++ sp). split; [rewrite <- app_assoc; reflexivity|]. apply m_cat; [apply m_cat; [apply S; exists t; auto|]|]; apply (star_single _ _ (single_cls _)); assumption.
Qed.
Lemma small_red : forall r x, para_sep x = false -> goes_on_small r -> starts_with (Cat (Star NotStop) Lower) (reduce ignored para_sep (Some x) r).
Proof.
  intros r x Kx (u & l & v & -> & El & F). assert (NI : ignored l = false) by (destruct (ignored l) eqn:E; [apply smark_iff in E; unfold s_mark in E; intuition congruence|reflexivity]).
  rewrite reduce_app. cbn [reduce]. rewrite NI. cbn [andb].
  assert (Fk : Forall (fun c => para_sep c = false) u). { eapply Forall_impl; [|exact F]. intros c (Q & _). destruct (para_sep c) eqn:E; [apply sep_iff in E; contradiction|reflexivity]. }
  rewrite (reduce_filter _ _ u x Kx Fk). exists (filter (fun c => negb (ignored c)) u ++ [l]), (reduce ignored para_sep (Some l) v). split; [rewrite <- app_assoc; reflexivity|]. apply m_cat; [|apply m_cls; apply sc_iff; exact El].
  apply (star_single _ _ (single_cls _)). apply Forall_forall. intros c I. apply filter_In in I as [I _]. rewrite Forall_forall in F. destruct (F c I) as (Q1 & Q2 & Q3 & Q4 & Q5). unfold terminator, full_stop in Q2.
  rewrite (sc_no _ _ Q3), (sc_no _ _ Q4), (sc_no _ _ Q5), (sc_no SB_STerm c), (sc_no SB_ATerm c) by tauto. destruct (para_sep c) eqn:E; [apply sep_iff in E; contradiction|reflexivity].
Qed.
(** After a sentence that ends without a separator. *)
Theorem stop_next : forall s y a, s <> [] -> ~ ends_separated s -> sentence_decides s (y :: a) Break -> may_begin y /\ (ends_full_stop s -> ~ goes_on_small (y :: a)).
Proof.
  intros s y a Ns NS D. destruct (stop_break s _ D) as [Q|ST]; [contradiction|]. destruct ST as (p & t & cs & Es & Ht & Hc).
  destruct (exists_last Ns) as (s0 & x & Ex). assert (Kx : para_sep x = false) by (destruct (para_sep x) eqn:E; [|reflexivity]; elim NS; exists s0, x; split; [exact Ex|apply sep_iff; exact E]).
  assert (Lx : last_char s = Some x) by (rewrite Ex; apply last_char_snoc).
  destruct D as [H|[H1 H]].
  { exfalso. inversion H as [|? ? _|? ? ? _ H1]; subst; try discriminate. inversion H1 as [|? ? A E|? ? ? _ H2]; subst.
    - destruct A as [(b1 & b2 & Eb & M) _]. apply single_para in M as (c & -> & K). apply NS. exists b1, c. split; [exact Eb|]. apply sep_iff. unfold para_sep. rewrite <- orb_assoc. exact K.
    - inversion H2 as [|? ? _|? ? ? _ H3]; subst; try discriminate. inversion H3. }
  assert (Iy : ignored y = false).
  { destruct (ignored y) eqn:E; [|reflexivity]. exfalso. inversion H1 as [|? ? _|? ? ? _ H2]; subst. inversion H2 as [|? ? _|? ? ? _ H3]; subst. inversion H3 as [|? ? _|? ? ? N _]; subst. apply N. split; [apply ends_any|]. exists [y], a. split; [reflexivity|apply m_cls; exact E]. }
  rewrite Lx in H. destruct (term_red p t cs Ht Hc) as (P & cl & sp & ER & F1 & F2). rewrite <- Es in ER.
  assert (KT : sc SB_STerm t || sc SB_ATerm t = true) by (rewrite orb_true_iff, !sc_iff; unfold terminator, full_stop in Ht; tauto).
  pose proof (ends_closing SATerm _ P t cl sp single_sat KT F1 F2) as EC. rewrite <- ER in EC.
  assert (EY : reduce ignored para_sep (Some x) (y :: a) = y :: reduce ignored para_sep (Some y) a) by (cbn [reduce]; rewrite Iy; reflexivity).
  inversion H as [|? ? _|? ? ? N6 H2]; subst; clear H. inversion H2 as [|? ? _|? ? ? N7 H]; subst; clear H2. inversion H as [|? ? _|? ? ? N8 H2]; subst; clear H. inversion H2 as [|? ? _|? ? ? N8a H]; subst; clear H2.
  inversion H as [|? ? _|? ? ? N9 H2]; subst; clear H. inversion H2 as [|? ? _|? ? ? N10 H]; subst; clear H2.
  assert (N8a' : ~ starts_with (Alt SContinue SATerm) (y :: reduce ignored para_sep (Some y) a)) by (intros Q; apply N8a; split; [exact EC|rewrite EY; exact Q]).
  assert (N10' : ~ starts_with (Alt Sp ParaSep) (y :: reduce ignored para_sep (Some y) a)) by (intros Q; apply N10; split; [exact EC|rewrite EY; exact Q]).
  rewrite (starts_single _ _ (single_alt SContinue SATerm _ _ (single_cls _) single_sat)) in N8a'. rewrite (starts_single _ _ (single_alt Sp ParaSep _ _ (single_cls _) single_para)) in N10'. cbv beta in N8a', N10'. rewrite !orb_true_iff, !sc_iff in N8a'. rewrite !orb_true_iff, !sc_iff in N10'. split.
  - unfold may_begin, separator, terminator, full_stop. split; [rewrite <- smark_iff, Iy; discriminate|]. tauto.
  - intros (p' & t' & cs' & Es' & Ht' & Hc') G. apply N8. split; [|apply (small_red _ x Kx G)]. cbn [left_applies r_left]. rewrite Es'. destruct (term_red p' t' cs' (or_introl Ht') Hc') as (P' & cl' & sp' & ER' & F1' & F2'). rewrite ER'.
    apply (ends_closing ATerm (sc SB_ATerm)); [apply single_cls|apply sc_iff; exact Ht'|exact F1'|exact F2'].
Qed.

(** The other direction: after a terminator and a space. *)
Lemma small_lift : forall r x, starts_with (Cat (Star NotStop) Lower) (reduce ignored para_sep (Some x) r) -> goes_on_small r.
Proof.
  intros r x (a1 & a2 & E & M). apply matches_cat in M as (u & l' & -> & MU & ML). apply matches_cls in ML as (l & -> & KL). apply (star_single _ _ (single_cls _)) in MU. rewrite <- app_assoc in E. cbn [app] in E.
  revert x E. revert u MU. induction r as [|c r IH]; intros u MU x E; [destruct u; discriminate E|]. cbn [reduce] in E. destruct (ignored c && _) eqn:K.
  - apply andb_true_iff in K as [K _]. apply smark_iff in K. destruct (IH u MU c E) as (v & l2 & w & -> & El & F). exists (c :: v), l2, w. split; [reflexivity|]. split; [exact El|]. constructor; [|exact F].
    unfold s_mark, separator, terminator, full_stop in *. intuition congruence.
  - destruct u as [|d u]; injection E as -> E; [exists [], l, r; split; [reflexivity|]; split; [apply sc_iff; exact KL|constructor]|]. inversion MU as [|? ? Kd MU']; subst. destruct (IH u MU' d E) as (v & l2 & w & -> & El & F). exists (d :: v), l2, w. split; [reflexivity|]. split; [exact El|].
    constructor; [|exact F]. apply negb_true_iff in Kd. rewrite !orb_false_iff in Kd. destruct Kd as [[[[[K1 K2] K3] K4] K5] K6]. unfold terminator, full_stop. rewrite <- sep_iff, K4, <- !sc_iff, K1, K2, K3, K5, K6. intuition discriminate.
Qed.
Lemma full_lift : forall s, ends_with (Cat (Cat ATerm (Star Close)) (Star Sp)) (reduce ignored para_sep None s) -> ends_full_stop s.
Proof.
  intros s (b1 & b2 & Eb & M). apply matches_cat in M as (m3 & sp & -> & M & MS). apply matches_cat in M as (m4 & cl & -> & MT & MC). apply matches_cls in MT as (t & -> & KT). apply (star_single _ _ (single_cls _)) in MC, MS.
  rewrite <- app_assoc in Eb. cbn [app] in Eb. destruct (reduce_lift _ _ _ _ _ _ _ Eb) as (s1 & s2 & -> & E2). exists s1, t, s2. split; [reflexivity|]. split; [apply sc_iff; exact KT|exact (closing_lift s2 _ cl sp E2 MC MS)].
Qed.
Lemma spaced_red : forall s, ends_spaced s -> exists P t cl sp z, reduce ignored para_sep None s = (P ++ t :: cl ++ sp) ++ [z] /\ sc SB_STerm t || sc SB_ATerm t = true
  /\ Forall (fun c => sc SB_Close c = true) cl /\ Forall (fun c => sc SB_Sp c = true) (sp ++ [z]).
Proof.
  intros s (p & t & cl & sp & -> & Ht & F1 & F2 & X). assert (NI : ignored t = false). { destruct (ignored t) eqn:E; [|reflexivity]. apply smark_iff in E. unfold s_mark, terminator, full_stop in *. intuition congruence. }
  assert (NK : forall c, SB c = SB_Close \/ SB c = SB_Sp \/ s_mark c \/ terminator c -> para_sep c = false).
  { intros c Q. destruct (para_sep c) eqn:E; [|reflexivity]. apply sep_iff in E. unfold separator, s_mark, terminator, full_stop in *. intuition congruence. }
  set (f := filter (fun x => negb (ignored x))). assert (Fs : Forall (fun c => sc SB_Sp c = true) (f sp)).
  { apply Forall_forall. intros c I. apply filter_In in I as [I K]. rewrite Forall_forall in F2. apply sc_iff. destruct (F2 c I) as [Q|Q]; [exact Q|]. apply smark_iff in Q. rewrite Q in K. discriminate K. }
  assert (Nf : f sp <> []). { apply Exists_exists in X as (c & I & Ec). intros Q. assert (J : In c (f sp)) by (apply filter_In; split; [exact I|]; destruct (ignored c) eqn:E; [apply smark_iff in E; unfold s_mark in E; intuition congruence|reflexivity]). rewrite Q in J. destruct J. }
  destruct (exists_last Nf) as (sp' & z & Ez). exists (reduce ignored para_sep None p), t, (f cl), sp', z. split; [|split; [|split]].
  - rewrite reduce_app. cbn [reduce]. rewrite NI. cbn [andb]. rewrite reduce_filter; [|apply NK; auto|apply Forall_app; split; (eapply Forall_impl; [|eassumption]); intros c Q; cbv beta in Q; apply NK; tauto].
    rewrite filter_app. fold f. rewrite Ez, <- !app_assoc. cbn [app]. rewrite <- app_assoc. reflexivity.
  - rewrite orb_true_iff, !sc_iff. unfold terminator, full_stop in Ht. tauto.
  - apply Forall_forall. intros c I. apply filter_In in I as [I K]. rewrite Forall_forall in F1. apply sc_iff. destruct (F1 c I) as [Q|Q]; [exact Q|]. apply smark_iff in Q. rewrite Q in K. discriminate K.
  - rewrite <- Ez. exact Fs.
Qed.
Theorem stop_spaced : forall s y a, ends_spaced s -> may_begin y -> (ends_full_stop s -> ~ goes_on_small (y :: a)) -> sentence_decides s (y :: a) Break.
Proof.
  intros s y a Hs (Y1 & Y2 & Y3 & Y4 & Y5) G.
  assert (L : exists s0 x, s = s0 ++ [x] /\ ~ separator x).
  { destruct Hs as (p & t & cl & sp & -> & Ht & F1 & F2 & X). destruct sp as [|z0 sp]; [inversion X|]. destruct (exists_last (l := z0 :: sp) ltac:(discriminate)) as (sp' & z & Ez). rewrite Ez in *. exists (p ++ t :: cl ++ sp'), z. split; [rewrite <- !app_assoc; cbn [app]; rewrite <- app_assoc; reflexivity|].
    apply Forall_app in F2 as [_ F2]. inversion F2 as [|? ? Q _]; subst. unfold separator, s_mark in *. intuition congruence. }
  destruct L as (s0 & x & Ex & Lx). assert (Iy : ignored y = false) by (destruct (ignored y) eqn:E; [apply smark_iff in E; contradiction|reflexivity]).
  assert (EY : reduce ignored para_sep (last_char s) (y :: a) = y :: reduce ignored para_sep (Some y) a) by (cbn [reduce]; rewrite Iy; reflexivity).
  destruct (spaced_red s Hs) as (P & t & cl & sp & z & ER & KT & F1 & F2). assert (Kz : SB z = SB_Sp) by (apply Forall_app in F2 as [_ F2]; inversion F2; subst; apply sc_iff; assumption).
  assert (EC : ends_with (Cat (Cat SATerm (Star Close)) (Star Sp)) (reduce ignored para_sep None s)).
  { rewrite ER, <- app_assoc. cbn [app]. rewrite <- app_assoc. exact (ends_closing SATerm _ P t cl (sp ++ [z]) single_sat KT F1 F2). }
  assert (NC : ~ ends_with (Cat SATerm (Star Close)) (reduce ignored para_sep None s)).
  { intros (b1 & b2 & Eb & M). apply matches_cat in M as (m & c & -> & M & MC). apply single_sat in M as (w & -> & Kw). apply (star_single _ _ (single_cls _)) in MC. rewrite ER in Eb.
    destruct c as [|c0 c] using rev_ind.
    - rewrite app_nil_r in Eb. apply app_inj_tail in Eb as [_ <-]. rewrite orb_true_iff, !sc_iff in Kw. intuition congruence.
    - rewrite !app_assoc in Eb. apply app_inj_tail in Eb as [_ <-]. apply Forall_app in MC as [_ MC]. inversion MC as [|? ? Q _]; subst. apply sc_iff in Q. congruence. }
  right. split.
  - unfold sentence_rules_1. apply says_next; [|apply says_next; [|apply says_next; [|apply says_none]]]; intros [A B]; cbn [r_left r_right left_applies] in A, B.
    + rewrite Ex in A. rewrite (ends_single CR _ (single_cls _)) in A. apply sc_iff in A. apply Lx. right. left. exact A.
    + rewrite Ex in A. rewrite (ends_single _ _ single_para) in A. cbv beta in A. rewrite !orb_true_iff, !sc_iff in A. exact (Lx A).
    + rewrite (starts_single Ignored _ (single_cls _)) in B. congruence.
  - rewrite EY. unfold sentence_rules_2. apply says_next; [|apply says_next; [|apply says_next; [|apply says_next; [|apply says_next; [|apply says_next; [|apply says_this]]]]]]; try (intros [A B]; cbn [r_left r_right left_applies] in A, B).
    + rewrite ER, (ends_single ATerm _ (single_cls _)) in A. apply sc_iff in A. congruence.
    + rewrite ER, (ends_cat_single ATerm _ (single_cls _)) in A. destruct A as [A _]. apply sc_iff in A. congruence.
    + apply (G (full_lift s A)). rewrite <- EY in B. rewrite Ex, last_char_snoc in B. exact (small_lift _ _ B).
    + rewrite (starts_single _ _ (single_alt SContinue SATerm _ _ (single_cls _) single_sat)) in B. cbv beta in B. rewrite !orb_true_iff, !sc_iff in B. unfold terminator, full_stop in Y3. tauto.
    + exact (NC A).
    + rewrite (starts_single _ _ (single_alt Sp ParaSep _ _ (single_cls _) single_para)) in B. cbv beta in B. rewrite !orb_true_iff, !sc_iff in B. unfold separator in Y2. tauto.
    + split; [|apply starts_any]. cbn [r_left left_applies]. apply ends_cat_opt. left. exact EC.
Qed.
