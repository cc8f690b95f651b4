(** The summaries of the text before a position forget what stands before a settling character. *)
From Verif Require Import Base ListFacts SpecUtf8 SpecUcd SpecRules SpecLocal RuleFacts SpecLookup BitFacts Trie.
From Verif Require TableGraphemes Graphemes SpecGraphemes SpecWords SpecSentences WordFacts SentenceFacts GraphemesConform ClusterFacts.

Lemma in_last : forall (x : N) w, In x w -> exists w' z, w = w' ++ [z].
Proof. intros x w I. destruct (exists_last (l := w)) as (w' & z & E); [intros ->; exact I|]. exists w', z. exact E. Qed.

(** ** graphemes *)
Section G.
  Import SpecGraphemes TableGraphemes GraphemesConform ClusterFacts Graphemes.
  Lemma g_forget : forall b b' x w, scalar x -> g_settles x -> gtr (b ++ x :: w) = gtr (b' ++ x :: w).
  Proof.
    intros b b' x w Hs (S1 & S2 & S3). unfold gtr. rewrite !fold_left_app. cbn [fold_left]. f_equal.
    generalize (fold_left gstep b gtr0) (fold_left gstep b' gtr0). intros t t'.
    assert (G : forall k, gcb_bit k <> 0%N -> GCB x <> k -> is (graphemes_property x) (gcb_bit k) = false).
    { intros k Hk N. rewrite <- gc_is by exact Hk. unfold gc. destruct (gcb_beq (GCB x) k) eqn:E; [|reflexivity]. elim N. apply internal_gcb_dec_bl. exact E. }
    pose proof (G GCB_Extend ltac:(discriminate) S1) as A1. pose proof (G GCB_ZWJ ltac:(discriminate) S2) as A2. pose proof (G GCB_Regional_Indicator ltac:(discriminate) S3) as A3.
    change (gcb_bit GCB_Extend) with _Extend in A1. change (gcb_bit GCB_ZWJ) with _ZWJ in A2. change (gcb_bit GCB_Regional_Indicator) with _RegionalIndicator in A3.
    destruct (not_EL x Hs) as [A4 A5].
    { intros E. rewrite (K_is x _Extend KExt Hs) in A1 by (unfold kinds; cbn; tauto). rewrite E in A1. discriminate A1. }
    { intros E. rewrite (K_is x _ZWJ KZWJ Hs) in A2 by (unfold kinds; cbn; tauto). rewrite E in A2. discriminate A2. }
    unfold gstep. rewrite A1, A2, A3, A4, A5. reflexivity.
  Qed.
  Lemma g_local : forall b b' w x a a' y o, scalar x -> In x w -> g_settles x ->
    grapheme_decides (b ++ w) (y :: a) o -> grapheme_decides (b' ++ w) (y :: a') o.
  Proof.
    intros b b' w x a a' y o Hs I S. apply in_split in I as (w0 & w1 & ->). rewrite !app_assoc.
    rewrite !decides_gdec by (intros N; apply app_eq_nil in N as [_ N]; discriminate N). rewrite (g_forget _ ((b' ++ w0)) x w1 Hs S). auto.
  Qed.
End G.

(** ** words and phrases *)
Section W.
  Import SpecWords WordFacts.
  Definition w_mid (c : N) : bool := spred (Alt MidLetter MidNumLetQ) c || spred (Alt MidNum MidNumLetQ) c || spred DoubleQuote c.
  Lemma w_settles_bool : forall c, w_settles c -> ignored c = false /\ w_mid c = false.
  Proof.
    intros c. unfold w_settles, ignored, w_mid, MidLetter, MidNumLetQ, MidNum, MidNumLet, SingleQuote, DoubleQuote. cbn [spred]. unfold wc. generalize (WB c). intros k.
    destruct k; cbn; intros (? & ? & ? & ? & ? & ? & ? & ?); try congruence; auto.
  Qed.
  (** The same, but for the last base but one, and that only after something else than punctuation inside words. *)
  Definition w_same (t t' : wtr) : Prop :=
    w_l t = w_l t' /\ w_lx t = w_lx t' /\ w_run t = w_run t' /\ (w_ll t = w_ll t' \/ on w_mid (w_lx t) = false).
  Lemma w_same_step : forall t t' c, w_same t t' -> w_same (wstep t c) (wstep t' c).
  Proof.
    intros t t' c (H1 & H2 & H3 & H4). unfold wstep. rewrite <- H1. destruct (drops ignored line_end (w_l t) c); unfold w_same; cbn [w_l w_lx w_ll w_run]; rewrite <- ?H2, <- ?H3; auto.
  Qed.
  Lemma w_same_fold : forall w t t', w_same t t' -> w_same (fold_left wstep w t) (fold_left wstep w t').
  Proof. induction w as [|c w IH]; intros t t' H; [exact H|]. cbn [fold_left]. apply IH, w_same_step, H. Qed.
  Lemma w_forget : forall b b' x w, w_settles_left x -> w_same (wtrack (b ++ x :: w)) (wtrack (b' ++ x :: w)).
  Proof.
    intros b b' x w [S R]. destruct (w_settles_bool x S) as [H1 H2]. unfold wtrack. rewrite !fold_left_app. cbn [fold_left]. apply w_same_fold.
    assert (HR : wri x = false). { unfold wri, wc. destruct (wb_beq _ _) eqn:E; [|reflexivity]. elim R. apply internal_wb_dec_bl. exact E. }
    unfold wstep, drops. rewrite H1. cbn [andb]. rewrite HR. unfold w_same. cbn [w_l w_lx w_ll w_run on]. auto.
  Qed.
  Lemma hd_reduce : forall u z r r' prev, ignored z = false ->
    hd_error (reduce ignored line_end prev (u ++ z :: r)) = hd_error (reduce ignored line_end prev (u ++ z :: r')).
  Proof.
    induction u as [|c u IH]; intros z r r' prev Hz; cbn [app reduce].
    - rewrite Hz. cbn [andb]. reflexivity.
    - destruct (ignored c && _); [apply IH; exact Hz|reflexivity].
  Qed.
  Lemma w_local : forall al phs, forallb is_single phs = true -> forall b b' w x v z a a' o, In x w -> w_settles_left x -> In z v -> w_settles z ->
    word_like al (map (fun r => Rule (Suffix r) Join r) phs) (b ++ w) (v ++ a) o ->
    word_like al (map (fun r => Rule (Suffix r) Join r) phs) (b' ++ w) (v ++ a') o.
  Proof.
    intros al phs HP b b' w x v z a a' o Ix Sx Iz Sz H. destruct (in_last x w Ix) as (w' & e & Ew). destruct v as [|y v]; [destruct Iz|]. cbn [app] in *.
    pose proof (word_spec al phs HP (b ++ w') e y (v ++ a)) as W. pose proof (word_spec al phs HP (b' ++ w') e y (v ++ a')) as W'. rewrite <- !app_assoc in W, W'. rewrite <- Ew in W, W'.
    rewrite (word_like_fun _ _ _ _ _ _ H W). clear H. match goal with |- word_like _ _ _ _ ?d => match type of W' with word_like _ _ _ _ ?d' => replace d with d'; [exact W'|] end end.
    apply in_split in Ix as (w0 & w1 & ->). rewrite !app_assoc in *. destruct (w_forget (b ++ w0) (b' ++ w0) x w1 Sx) as (H1 & H2 & H3 & H4).
    set (t := wtrack ((b ++ w0) ++ x :: w1)) in *. set (t' := wtrack ((b' ++ w0) ++ x :: w1)) in *. unfold word_dec. rewrite <- H1, <- H2, <- H3. destruct (word_dec1 (w_l t) y); [reflexivity|].
    assert (HN : after_red y (v ++ a') = after_red y (v ++ a) \/ w_mid y = false).
    { destruct (w_settles_bool z Sz) as [Z1 Z2]. destruct Iz as [->|Iz]; [right; exact Z2|]. left. apply in_split in Iz as (v0 & v1 & ->). unfold after_red. rewrite <- !app_assoc. apply hd_reduce. exact Z1. }
    assert (EL : forall n, word_dec2 al phs (w_lx t) (w_ll t') (w_run t) y n = word_dec2 al phs (w_lx t) (w_ll t) (w_run t) y n).
    { intros n. destruct H4 as [->|H4]; [reflexivity|]. destruct (w_lx t) as [c|]; [|reflexivity]. cbn [on] in *. unfold w_mid in H4. apply orb_false_elim in H4 as [H4 H6]. apply orb_false_elim in H4 as [H4 H5].
      unfold word_dec2. cbn [on]. rewrite H4, H5, H6. reflexivity. }
    rewrite EL. destruct HN as [->|HN]; [reflexivity|]. unfold w_mid in HN. apply orb_false_elim in HN as [H5 H7]. apply orb_false_elim in H5 as [H5 H6].
    unfold word_dec2. rewrite H5, H6, H7. reflexivity.
  Qed.
End W.

(** ** sentences *)
Section S.
  Import SpecSentences WordFacts SentenceFacts.
  Definition s_same (t t' : str) : Prop :=
    t_l t = t_l t' /\ t_lx t = t_lx t' /\ t_ac t = t_ac t' /\ t_as t = t_as t' /\ t_sc t = t_sc t' /\ t_ss t = t_ss t'
    /\ (t_ll t = t_ll t' \/ on AT (t_lx t) = false) /\ (t_sp t = t_sp t' \/ on PA (t_l t) = true).
  Lemma PA_keep : forall c, PA c = para_sep c.
  Proof. intros c. unfold PA, ParaSep, Sep, CR, LF, para_sep. cbn [spred]. unfold sc. generalize (SB c). intros k. destruct k; reflexivity. Qed.
  Lemma s_same_step : forall t t' c, s_same t t' -> s_same (sstep t c) (sstep t' c).
  Proof.
    intros t t' c (H1 & H2 & H3 & H4 & H5 & H6 & H7 & H8). unfold sstep. rewrite <- H1. destruct (drops ignored para_sep (t_l t) c) eqn:D; unfold s_same; cbn [t_l t_lx t_ll t_ac t_as t_sc t_ss t_sp];
      rewrite <- ?H2, <- ?H3, <- ?H4, <- ?H5, <- ?H6; repeat (split; [auto; fail|]); [|auto].
    left. destruct H8 as [H8|H8]; [exact H8|]. unfold drops in D. destruct (t_l t) as [p|]; [|discriminate H8]. cbn [on] in H8. rewrite PA_keep in H8. rewrite H8, andb_false_r in D. discriminate D.
  Qed.
  Lemma s_same_fold : forall w t t', s_same t t' -> s_same (fold_left sstep w t) (fold_left sstep w t').
  Proof. induction w as [|c w IH]; intros t t' H; [exact H|]. cbn [fold_left]. apply IH, s_same_step, H. Qed.
  Lemma s_forget : forall b b' x w, s_settles_left x -> s_same (strack (b ++ x :: w)) (strack (b' ++ x :: w)).
  Proof.
    intros b b' x w S. assert (B : ignored x = false /\ AT x = false /\ CL x = false /\ SP x = false).
    { revert S. unfold s_settles_left, ignored, AT, SAT, CL, SP, SATerm, ATerm, STerm, Close, Sp. cbn [spred]. unfold sc. generalize (SB x). intros k. destruct k; cbn; intros (? & ? & ? & ? & ?); try congruence; auto. }
    destruct B as (B1 & B2 & B4 & B5). unfold strack. rewrite !fold_left_app. cbn [fold_left]. apply s_same_fold.
    unfold sstep, drops. rewrite B1, B2, B4, B5. cbn [andb]. rewrite ?orb_false_r. unfold s_same. cbn [t_l t_lx t_ll t_ac t_as t_sc t_ss t_sp on]. repeat (split; [auto; fail|]).
    destruct (PA x); [right|left]; reflexivity.
  Qed.
  Lemma low_settles : forall u z r r', s_settles_right z -> low (u ++ z :: r) = low (u ++ z :: r').
  Proof.
    intros u z r r' S. assert (B : spred NotStop z = false).
    { revert S. unfold s_settles_right, NotStop, para_sep. cbn [spred]. unfold sc. generalize (SB z). intros k. destruct k; cbn; intros H; try reflexivity; intuition discriminate. }
    induction u as [|c u IH]; cbn [app low]; [rewrite B; reflexivity|]. rewrite IH. reflexivity.
  Qed.
  Lemma s_local : forall b b' w x v z a a' o, In x w -> s_settles_left x -> In z v -> s_settles_right z ->
    sentence_decides (b ++ w) (v ++ a) o -> sentence_decides (b' ++ w) (v ++ a') o.
  Proof.
    intros b b' w x v z a a' o Ix Sx Iz Sz H. destruct (in_last x w Ix) as (w' & e & Ew).
    assert (L : low (v ++ a) = low (v ++ a')). { apply in_split in Iz as (v0 & v1 & ->). rewrite <- !app_assoc. apply low_settles. exact Sz. }
    destruct v as [|y v]; [destruct Iz|]. cbn [app] in H, L |- *.
    pose proof (sentence_spec (b ++ w') e y (v ++ a)) as W. pose proof (sentence_spec (b' ++ w') e y (v ++ a')) as W'. rewrite <- !app_assoc in W, W'. rewrite <- Ew in W, W'.
    rewrite (sentence_fun _ _ _ _ H W). clear H. match goal with |- sentence_decides _ _ ?d => match type of W' with sentence_decides _ _ ?d' => replace d with d'; [exact W'|] end end. rewrite <- L. clear W W'.
    apply in_split in Ix as (w0 & w1 & ->). rewrite !app_assoc. destruct (s_forget (b ++ w0) (b' ++ w0) x w1 Sx) as (H1 & H2 & H3 & H4 & H5 & H6 & H7 & H8).
    set (t := strack ((b ++ w0) ++ x :: w1)) in *. set (t' := strack ((b' ++ w0) ++ x :: w1)) in *. unfold s_dec. rewrite <- H1. destruct (s_dec1 (t_l t) y) eqn:D; [reflexivity|].
    unfold s_dec2. rewrite <- H2, <- H4, <- H5, <- H6.
    assert (SPe : t_sp t' = t_sp t). { destruct H8 as [H8|H8]; [auto|]. unfold s_dec1 in D. rewrite H8 in D. destruct (on (spred CR) (t_l t) && spred LF y); discriminate D. }
    rewrite SPe. destruct H7 as [->|H7]; [reflexivity|]. rewrite H7. reflexivity.
  Qed.
End S.
