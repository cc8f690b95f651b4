(** With middle joiners, too, boundaries are settled locally. *)
From Verif Require Import Base ListFacts Trie SpecUtf8 SpecUcd SpecLookup SpecRules SpecWords SpecJoined SpecLocal RuleFacts WordFacts TableWords WordsConform JoinedFacts LocalFacts.
From Verif Require Words SeekText JoinersSim.
Import Words.
Local Notation nextv := (SeekText.nextv _Ignore words_property).

Section Mid.
  Variable mid : N -> bool.
  Definition j_mid (c : N) : bool := w_mid c || mid c.
  Definition j_same (t t' : wtr) : Prop :=
    w_l t = w_l t' /\ w_lx t = w_lx t' /\ w_run t = w_run t' /\ (w_ll t = w_ll t' \/ on j_mid (w_lx t) = false).
  Lemma j_same_step : forall t t' c, j_same t t' -> j_same (wstep t c) (wstep t' c).
  Proof.
    intros t t' c (H1 & H2 & H3 & H4). unfold wstep. rewrite <- H1. destruct (drops ignored line_end (w_l t) c); unfold j_same; cbn [w_l w_lx w_ll w_run]; rewrite <- ?H2, <- ?H3; auto.
  Qed.
  Lemma j_same_fold : forall w t t', j_same t t' -> j_same (fold_left wstep w t) (fold_left wstep w t').
  Proof. induction w as [|c w IH]; intros t t' H; [exact H|]. cbn [fold_left]. apply IH, j_same_step, H. Qed.
  Lemma j_forget : forall b b' x w, w_settles_left x -> mid x = false -> j_same (wtrack (b ++ x :: w)) (wtrack (b' ++ x :: w)).
  Proof.
    intros b b' x w [S R] HM. destruct (w_settles_bool x S) as [H1 H2]. unfold wtrack. rewrite !fold_left_app. cbn [fold_left]. apply j_same_fold.
    assert (HR : wri x = false). { unfold wri, wc. destruct (wb_beq _ _) eqn:E; [|reflexivity]. elim R. apply internal_wb_dec_bl. exact E. }
    unfold wstep, drops. rewrite H1. cbn [andb]. rewrite HR. unfold j_same. cbn [w_l w_lx w_ll w_run on]. unfold j_mid. rewrite H2, HM. auto.
  Qed.
  Lemma nextv_settles : forall u z r r', ignored z = false -> nextv (u ++ z :: r) = nextv (u ++ z :: r').
  Proof.
    induction u as [|c u IH]; intros z r r' Hz; cbn [app SeekText.nextv]; unfold SeekText.skipped; rewrite <- c_IG.
    - rewrite Hz. reflexivity.
    - destruct (ignored c); [apply IH; exact Hz|reflexivity].
  Qed.
  Lemma j_bits : forall c, j_mid c = false -> is (M mid c) _ML = false /\ is (M mid c) _MN = false /\ is (M mid c) _DoubleQuote = false.
  Proof.
    intros c H. unfold j_mid, w_mid in H. apply orb_false_elim in H as [H HM]. apply orb_false_elim in H as [H HQ]. apply orb_false_elim in H as [H1 H2].
    rewrite !M_is, HM. cbn [andb]. rewrite !orb_false_r. rewrite c_ML in H1. rewrite c_MN in H2. rewrite c_DQ in HQ. auto.
  Qed.
  Lemma j_local : forall b b' w x v z a a' o, In x w -> w_settles_left x -> mid x = false -> In z v -> w_settles z -> mid z = false ->
    joined_decides mid (b ++ w) (v ++ a) o -> joined_decides mid (b' ++ w) (v ++ a') o.
  Proof.
    intros b b' w x v z a a' o Ix Sx Mx Iz Sz Mz H. destruct (in_last x w Ix) as (w' & e & Ew). destruct v as [|y v]; [destruct Iz|]. cbn [app] in *.
    pose proof (m_spec mid (b ++ w') e y (v ++ a)) as W. pose proof (m_spec mid (b' ++ w') e y (v ++ a')) as W'. cbv zeta in W, W'. rewrite <- !app_assoc in W, W'. rewrite <- Ew in W, W'.
    rewrite (JoinersSim.joined_fun mid _ _ _ _ H W). clear H. match goal with |- joined_decides _ _ _ ?d => match type of W' with joined_decides _ _ _ ?d' => replace d with d'; [exact W'|] end end. clear W W'.
    apply in_split in Ix as (w0 & w1 & Ew1). clear Ew. subst w. rewrite !app_assoc. destruct (j_forget (b ++ w0) (b' ++ w0) x w1 Sx Mx) as (H1 & H2 & H3 & H4).
    set (t := wtrack ((b ++ w0) ++ x :: w1)) in *. set (t' := wtrack ((b' ++ w0) ++ x :: w1)) in *. unfold vdec. rewrite <- H2, <- H3. destruct (vdec1 (M mid e) (M mid y)); [reflexivity|].
    assert (HN : nextv (v ++ a') = nextv (v ++ a) \/ j_mid y = false).
    { destruct (w_settles_bool z Sz) as [Z1 Z2]. destruct Iz as [->|Iz]; [right; unfold j_mid; rewrite Z2, Mz; reflexivity|]. left. apply in_split in Iz as (v0 & v1 & ->). rewrite <- !app_assoc. apply nextv_settles. exact Z1. }
    assert (EL : forall n, vdec2 (mval mid (w_lx t)) (mval mid (w_ll t')) (w_run t) (M mid y) n = vdec2 (mval mid (w_lx t)) (mval mid (w_ll t)) (w_run t) (M mid y) n).
    { intros n. destruct H4 as [->|H4]; [reflexivity|]. destruct (w_lx t) as [c|]; [|reflexivity]. cbn [on mval] in *. destruct (ignored c); [reflexivity|]. destruct (j_bits c H4) as (B1 & B2 & B3).
      unfold vdec2. rewrite B1, B2, B3. reflexivity. }
    rewrite EL. destruct HN as [->|HN]; [reflexivity|]. destruct (j_bits y HN) as (B1 & B2 & B3). unfold vdec2. rewrite B1, B2, B3, !andb_false_r. reflexivity.
  Qed.
End Mid.
