(** Exactly where sentences end. *)
From Verif Require Import Base ListFacts SpecUtf8 SpecRules SpecUcd SpecSentences SpecStop SpecExact RuleFacts WordFacts SentenceFacts StopFacts.

Lemma tailed_snoc : forall T C s x, tailed T C (s ++ [x]) <-> T x \/ C x /\ tailed T C s.
Proof.
  intros T C s x. split.
  - intros (p & t & m & E & Ht & F). destruct m as [|z m _] using rev_ind.
    + apply app_inj_tail in E as [_ <-]. left. exact Ht.
    + right. apply Forall_app in F as [F Fz]. rewrite app_comm_cons, app_assoc in E. apply app_inj_tail in E as [-> <-]. split; [exact (Forall_inv Fz)|]. exists p, t, m. auto.
  - intros [H|(Hc & p & t & m & -> & Ht & F)]; [exists s, x, []; auto|]. exists p, t, (m ++ [x]). rewrite <- app_assoc. cbn [app]. split; [reflexivity|]. split; [exact Ht|]. apply Forall_app. auto.
Qed.
Lemma tailed_nil : forall T C, ~ tailed T C [].
Proof. intros T C (p & t & m & E & _). destruct p; discriminate E. Qed.

(** Terminators of a kind, closing characters and spaces. *)
Definition stopped (T : N -> Prop) (s : text) : Prop := exists p t cs, s = p ++ t :: cs /\ T t /\ closing cs.
Definition clo (c : N) : Prop := SB c = SB_Close \/ s_mark c.
Lemma stopped_snoc : forall T s x, stopped T (s ++ [x]) <-> tailed T clo (s ++ [x]) \/ (SB x = SB_Sp \/ s_mark x) /\ stopped T s.
Proof.
  intros T s x. split.
  - intros (p & t & cs & E & Ht & cl & sp & -> & F1 & F2). destruct sp as [|z sp _] using rev_ind.
    + left. rewrite app_nil_r in E. exists p, t, cl. auto.
    + right. apply Forall_app in F2 as [F2 Fz]. rewrite app_assoc, app_comm_cons, app_assoc in E. apply app_inj_tail in E as [-> <-]. split; [exact (Forall_inv Fz)|]. exists p, t, (cl ++ sp). split; [reflexivity|]. split; [exact Ht|]. exists cl, sp. auto.
  - intros [(p & t & cl & E & Ht & F)|(Hx & p & t & cs & -> & Ht & cl & sp & -> & F1 & F2)].
    + exists p, t, cl. split; [exact E|]. split; [exact Ht|]. exists cl, []. rewrite app_nil_r. auto.
    + exists p, t, (cl ++ sp ++ [x]). split; [rewrite <- app_assoc; cbn [app]; rewrite <- app_assoc; reflexivity|]. split; [exact Ht|]. exists cl, (sp ++ [x]). split; [reflexivity|]. split; [exact F1|]. apply Forall_app. auto.
Qed.
Lemma stopped_nil : forall T, ~ stopped T [].
Proof. intros T (p & t & m & E & _). destruct p; discriminate E. Qed.
Lemma dotted_snoc : forall s x, ends_dotted_letter (s ++ [x]) <-> full_stop x /\ tailed cased s_mark s \/ s_mark x /\ ends_dotted_letter s.
Proof.
  intros s x. split.
  - intros (p & m & E & TL & t & m' & -> & Ht & F). destruct m' as [|z m' _] using rev_ind.
    + apply app_inj_tail in E as [-> <-]. left. auto.
    + right. apply Forall_app in F as [F Fz]. rewrite app_comm_cons, app_assoc in E. apply app_inj_tail in E as [-> <-]. split; [exact (Forall_inv Fz)|]. exists p, (t :: m'). split; [reflexivity|]. split; [exact TL|]. exists t, m'. auto.
  - intros [[Ht TL]|(Hx & p & m & -> & TL & t & m' & -> & Ht & F)].
    + exists s, [x]. split; [reflexivity|]. split; [exact TL|]. exists x, []. auto.
    + exists p, (t :: m' ++ [x]). split; [rewrite <- app_assoc; reflexivity|]. split; [exact TL|]. exists t, (m' ++ [x]). split; [reflexivity|]. split; [exact Ht|]. apply Forall_app. auto.
Qed.
Lemma dotted_nil : ~ ends_dotted_letter [].
Proof. intros (p & m & E & _ & t & m' & -> & _). destruct p; discriminate E. Qed.

(** The classes of one character. *)
Record cls (x : N) : Prop := {
  c_at : AT x = true <-> full_stop x; c_sat : SAT x = true <-> terminator x; c_cl : CL x = true <-> SB x = SB_Close; c_sp : SP x = true <-> SB x = SB_Sp;
  c_pa : PA x = true <-> separator x; c_ul : spred (Alt Upper Lower) x = true <-> cased x }.
Lemma cls_all : forall x, cls x.
Proof.
  intros x. split; unfold AT, SAT, CL, SP, PA, SATerm, ATerm, STerm, Close, Sp, ParaSep, Sep, CR, LF, Upper, Lower; cbn [spred]; rewrite ?orb_true_iff, ?sc_iff; unfold terminator, full_stop, separator, cased; tauto.
Qed.

Definition tight_stop : text -> Prop := tailed full_stop clo.
Lemma track_exact : forall s, let t := strack s in
  (on AT (t_lx t) = true <-> ends_dot s) /\ (on (spred (Alt Upper Lower)) (t_lx t) = true <-> tailed cased s_mark s)
  /\ (on AT (t_lx t) && on (spred (Alt Upper Lower)) (t_ll t) = true <-> ends_dotted_letter s)
  /\ (t_ac t = true <-> tight_stop s) /\ (t_as t = true <-> stopped full_stop s) /\ (t_sc t = true <-> ends_tight s) /\ (t_ss t = true <-> stopped terminator s).
Proof.
  induction s as [|x s IH] using rev_ind.
  - cbn. pose proof dotted_nil. pose proof (stopped_nil full_stop). pose proof (stopped_nil terminator). pose proof (tailed_nil full_stop s_mark). pose proof (tailed_nil cased s_mark). pose proof (tailed_nil full_stop clo). pose proof (tailed_nil terminator clo).
    unfold ends_dot, tight_stop, ends_tight. fold clo. repeat split; try discriminate; intros K; contradiction.
  - cbv zeta in *. destruct IH as (I1 & I2 & I3 & I4 & I5 & I6 & I7). destruct (strack_facts s) as (HL & _). rewrite strack_snoc.
    unfold ends_dot, tight_stop, ends_tight in *. fold clo in *. rewrite !stopped_snoc, dotted_snoc, !tailed_snoc.
    destruct (cls_all x) as [C1 C2 C3 C4 C5 C6]. pose proof (smark_iff x) as C7.
    unfold sstep. destruct (drops ignored para_sep (t_l (strack s)) x) eqn:D; cbn [t_l t_lx t_ll t_ac t_as t_sc t_ss t_sp on].
    + unfold drops in D. apply andb_true_iff in D as [D _]. apply C7 in D. rewrite I1, I2, I3, I4, I5, I6, I7. assert (X : ~ full_stop x /\ ~ terminator x /\ ~ cased x) by (unfold full_stop, terminator, full_stop, cased, s_mark in *; intuition congruence).
      assert (Y : clo x) by (right; exact D).
      assert (Z : forall T, tailed T clo s -> stopped T s). { intros T (p & t & m & E & Ht & F). exists p, t, m. split; [exact E|]. split; [exact Ht|]. exists m, []. rewrite app_nil_r. auto. }
      pose proof (Z full_stop). pose proof (Z terminator). tauto.
    + (* kept: not a mark, or nothing but a separator before it *)
      assert (K : ~ s_mark x \/ (forall T C : N -> Prop, (forall c, T c \/ C c -> ~ separator c) -> ~ tailed T C s) /\ ~ ends_dotted_letter s /\ (forall T : N -> Prop, (forall c, T c -> ~ separator c) -> ~ stopped T s)).
      { unfold drops in D. apply andb_false_iff in D as [D|D]; [left; rewrite <- C7, D; discriminate|]. right. rewrite HL in D. clear - D.
        assert (M : forall c, s_mark c -> ~ separator c) by (unfold s_mark, separator; intuition congruence).
        destruct s as [|p s _] using rev_ind; [split; [intros; apply tailed_nil|]; split; [apply dotted_nil|intros; apply stopped_nil]|]. rewrite last_char_snoc in D. apply negb_false_iff, sep_iff in D.
        assert (Q : forall T C : N -> Prop, (forall c, T c \/ C c -> ~ separator c) -> ~ tailed T C (s ++ [p])) by (intros T C HT; rewrite tailed_snoc; intros [H|[H _]]; apply (HT p); auto).
        split; [exact Q|]. split.
        - rewrite dotted_snoc. intros [[H _]|[H _]]; [unfold full_stop, separator in *; intuition congruence|exact (M p H D)].
        - intros T HT. rewrite stopped_snoc. intros [H|[[H|H] _]]; [|unfold separator in D; intuition congruence|exact (M p H D)]. revert H. apply Q. intros c [H|[H|H]]; [exact (HT c H)|unfold separator; intuition congruence|exact (M c H)]. }
      rewrite ?orb_true_iff, ?andb_true_iff, ?orb_true_iff, ?andb_true_iff, C1, C2, C3, C4, C6, I2, I4, I5, I6, I7.
      assert (Z : s_mark x \/ ~ s_mark x) by (destruct (ignored x) eqn:E; [left; apply C7; reflexivity|right; intros Q; apply C7 in Q; discriminate Q]).
      destruct K as [K|(K1 & K2 & K3)].
      * assert (Y : clo x <-> SB x = SB_Close) by (unfold clo; tauto). rewrite Y. clear - K. tauto.
      * assert (A1 : ~ tailed full_stop s_mark s) by (apply K1; intros c; unfold full_stop, s_mark, separator; intuition congruence).
        assert (A2 : ~ tailed cased s_mark s) by (apply K1; intros c; unfold cased, s_mark, separator; intuition congruence).
        assert (A3 : ~ tailed full_stop clo s) by (apply K1; intros c; unfold full_stop, clo, s_mark, separator; intuition congruence).
        assert (A4 : ~ tailed terminator clo s) by (apply K1; intros c; unfold terminator, full_stop, clo, s_mark, separator; intuition congruence).
        assert (A5 : ~ stopped full_stop s) by (apply K3; intros c; unfold full_stop, separator; intuition congruence).
        assert (A6 : ~ stopped terminator s) by (apply K3; intros c; unfold terminator, full_stop, separator; intuition congruence).
        tauto.
Qed.

Lemma small_cons : forall c r, goes_on_small (c :: r) <-> SB c = SB_Lower \/ (~ separator c /\ ~ terminator c /\ SB c <> SB_OLetter /\ SB c <> SB_Upper /\ SB c <> SB_Lower) /\ goes_on_small r.
Proof.
  intros c r. split.
  - intros (u & l & v & E & El & F). destruct u as [|d u]; injection E as -> E; [left; exact El|]. right. inversion F; subst. split; [assumption|]. exists u, l, v. auto.
  - intros [H|[H (u & l & v & -> & El & F)]]; [exists [], c, r; auto|]. exists (c :: u), l, v. auto.
Qed.
Lemma low_small : forall r, low r = true <-> goes_on_small r.
Proof.
  induction r as [|c r IH]; [split; [discriminate|intros (u & l & v & E & _); destruct u; discriminate E]|]. rewrite small_cons, <- IH. cbn [low]. rewrite orb_true_iff, andb_true_iff.
  assert (A : spred Lower c = true <-> SB c = SB_Lower) by apply sc_iff. rewrite A.
  assert (B : spred NotStop c = true <-> ~ separator c /\ ~ terminator c /\ SB c <> SB_OLetter /\ SB c <> SB_Upper /\ SB c <> SB_Lower).
  { unfold NotStop. cbn [spred]. rewrite <- sep_iff. unfold terminator, full_stop. rewrite negb_true_iff, !orb_false_iff, <- !not_true_iff_false, !sc_iff. tauto. }
  rewrite B. reflexivity.
Qed.

Definition mayb (k : sb) : bool := match k with SB_Extend | SB_Format | SB_Sep | SB_CR | SB_LF | SB_ATerm | SB_STerm | SB_Sp | SB_SContinue => false | _ => true end.
Lemma mayb_iff : forall y, mayb (SB y) = true <-> may_begin y.
Proof. intros y. unfold may_begin, s_mark, separator, terminator, full_stop. generalize (SB y). intros k. destruct k; cbn; intuition congruence. Qed.
Theorem exact : forall s y a, s <> [] -> (sentence_decides s (y :: a) Break <-> sentence_ends s y a).
Proof.
  intros s y a Ns. destruct (exists_last Ns) as (s0 & x & Ex).
  assert (DD : sentence_decides s (y :: a) Break <-> s_dec (strack s) y (low (y :: a)) = Break).
  { pose proof (sentence_spec s0 x y a) as W. rewrite <- Ex in W. split; [intros H; exact (sentence_fun _ _ _ _ W H)|intros <-; exact W]. }
  rewrite DD. clear DD. destruct (strack_facts s) as (HL & _). rewrite Ex, last_char_snoc, <- Ex in HL.
  destruct (track_exact s) as (T1 & _ & T3 & _ & T5 & T6 & T7). destruct (strack_inv s) as (_ & _ & _ & _ & V5 & V6 & _). cbv zeta in *. rewrite HL in V5. cbn [on] in V5.
  assert (SEP : ends_separated s <-> PA x = true). { rewrite (c_pa x (cls_all x)). split; [intros (s' & c & E & H); rewrite Ex in E; apply app_inj_tail in E as [_ <-]; exact H|intros H; exists s0, x; auto]. }
  assert (ECR : (exists s' c, s = s' ++ [c] /\ SB c = SB_CR) <-> spred CR x = true). { unfold CR. cbn [spred]. rewrite sc_iff. split; [intros (s' & c & E & H); rewrite Ex in E; apply app_inj_tail in E as [_ <-]; exact H|intros H; exists s0, x; auto]. }
  assert (ELF : spred LF y = true <-> SB y = SB_LF) by apply sc_iff.
  change (ends_stopped s) with (stopped terminator s) in *. unfold s_dec, s_dec1. rewrite HL. cbn [on]. unfold sentence_ends. change (ends_stopped s) with (stopped terminator s). change (ends_full_stop s) with (stopped full_stop s).
  destruct (PA x) eqn:EP.
  - assert (NS : ~ stopped terminator s). { rewrite Ex, stopped_snoc, tailed_snoc. apply (c_pa x (cls_all x)) in EP. clear - EP. unfold clo, terminator, full_stop, s_mark, separator in *. intuition congruence. }
    rewrite SEP, ECR, <- ELF. destruct (spred CR x), (spred LF y); cbn [andb]; intuition congruence.
  - assert (CRF : spred CR x = false). { destruct (spred CR x) eqn:E; [|reflexivity]. exfalso. assert (K : PA x = true); [|congruence]. apply (c_pa x (cls_all x)). right. left. apply sc_iff. exact E. }
    rewrite CRF. cbn [andb]. destruct (ignored y) eqn:EY.
    + apply smark_iff in EY. split; [discriminate|]. intros [[H _]|(_ & (H & _) & _)]; [apply SEP in H; discriminate H|contradiction].
    + assert (SPF : t_sp (strack s) = false). { destruct (t_sp (strack s)) eqn:E; [|reflexivity]. discriminate (V5 (V6 eq_refl)). }
      rewrite <- T1, <- T3, <- T5, <- T6, <- T7, <- low_small. unfold s_dec2. rewrite SPF. generalize (low (y :: a)). intros F.
      set (dt := on AT (t_lx (strack s))). set (dl := on (spred (Alt Upper Lower)) (t_ll (strack s))).
      assert (B : forall P Q : Prop, ~ P -> (P /\ Q \/ (t_ss (strack s) = true /\ may_begin y /\ ~ (t_sc (strack s) = true /\ SB y = SB_Close) /\ ~ (dt = true /\ SB y = SB_Numeric)
          /\ ~ (dt && dl = true /\ SB y = SB_Upper) /\ ~ (t_as (strack s) = true /\ F = true))
        <-> t_ss (strack s) && mayb (SB y) && negb (t_sc (strack s) && sb_beq (SB y) SB_Close) && negb (dt && sb_beq (SB y) SB_Numeric) && negb (dt && dl && sb_beq (SB y) SB_Upper) && negb (t_as (strack s) && F) = true)).
      { intros P Q NP. assert (Z : forall b, negb b = true <-> ~ b = true) by (intros []; cbn; intuition congruence). rewrite !(andb_true_iff _ (negb _)), !Z, (andb_true_iff _ (mayb _)), (andb_true_iff (t_sc _)), (andb_true_iff dt (sb_beq _ _)), (andb_true_iff (dt && dl) (sb_beq _ _)), (andb_true_iff (t_as _)), mayb_iff. fold (sc SB_Close y) (sc SB_Numeric y) (sc SB_Upper y). rewrite !sc_iff. tauto. }
      rewrite B by (rewrite SEP; discriminate). clear - EY. unfold Numeric, Upper, SContinue, SATerm, ATerm, STerm, Close, Sp, ParaSep, Sep, CR, LF. cbn [spred]. revert EY. unfold ignored, sc. generalize (SB y). intros k EY.
      destruct dt, dl, (t_as (strack s)), (t_sc (strack s)), (t_ss (strack s)), F, k; cbn in *; first [discriminate EY|split; first [reflexivity|discriminate]].
Qed.
