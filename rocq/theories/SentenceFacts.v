(** The sentence rules read as a decision on a summary of the text before a position. *)
From Verif Require Import Base ListFacts SpecUcd SpecRules SpecSentences RuleFacts WordFacts.

Definition AT := spred ATerm.
Definition SAT := spred SATerm.
Definition CL := spred Close.
Definition SP := spred Sp.
Definition PA := spred ParaSep.

(** The last character, the last two that are not ignored, and whether the text without the ignored characters ends
    with ATerm Close*, ATerm Close* Sp*, SATerm Close*, SATerm Close* Sp*, SATerm Close* Sp* ParaSep. *)
Record str := { t_l : option N; t_lx : option N; t_ll : option N; t_ac : bool; t_as : bool; t_sc : bool; t_ss : bool; t_sp : bool }.
Definition str0 : str := {| t_l := None; t_lx := None; t_ll := None; t_ac := false; t_as := false; t_sc := false; t_ss := false; t_sp := false |}.
Definition sstep (t : str) (c : N) : str :=
  if drops ignored para_sep (t_l t) c
  then {| t_l := Some c; t_lx := t_lx t; t_ll := t_ll t; t_ac := t_ac t; t_as := t_as t; t_sc := t_sc t; t_ss := t_ss t; t_sp := t_sp t |}
  else {| t_l := Some c; t_lx := Some c; t_ll := t_lx t;
          t_ac := AT c || CL c && t_ac t; t_as := (AT c || CL c && t_ac t) || SP c && t_as t;
          t_sc := SAT c || CL c && t_sc t; t_ss := (SAT c || CL c && t_sc t) || SP c && t_ss t;
          t_sp := PA c && t_ss t |}.
Definition strack (b : text) : str := fold_left sstep b str0.
Lemma strack_snoc : forall b x, strack (b ++ [x]) = sstep (strack b) x.
Proof. intros. unfold strack. rewrite fold_left_app. reflexivity. Qed.

Definition sred (b : text) : text := reduce ignored para_sep None b.
Definition ZC (r : re) : re := Cat r (Star Close).
Definition ZS (r : re) : re := Cat (Cat r (Star Close)) (Star Sp).

Lemma sC : single Close CL. Proof. apply single_spred. reflexivity. Qed.
Lemma sS : single Sp SP. Proof. apply single_spred. reflexivity. Qed.
Lemma sP : single ParaSep PA. Proof. apply single_spred. reflexivity. Qed.

Lemma strack_facts : forall b, let t := strack b in
  t_l t = last_char b /\ last2 (sred b) (t_lx t) (t_ll t)
  /\ (ends_with (ZC ATerm) (sred b) <-> t_ac t = true) /\ (ends_with (ZS ATerm) (sred b) <-> t_as t = true)
  /\ (ends_with (ZC SATerm) (sred b) <-> t_sc t = true) /\ (ends_with (ZS SATerm) (sred b) <-> t_ss t = true)
  /\ (ends_with (Cat (ZS SATerm) ParaSep) (sred b) <-> t_sp t = true).
Proof.
  assert (N1 : forall r, is_single r = true -> ~ ends_with (ZC r) []).
  { intros r Hr H. apply ends_cat_star_nil in H. exact (ends_single_nil _ _ (single_spred r Hr) H). }
  assert (N2 : forall r, is_single r = true -> ~ ends_with (ZS r) []).
  { intros r Hr H. apply ends_cat_star_nil in H. exact (N1 r Hr H). }
  induction b as [|x b IH] using rev_ind.
  - cbn. assert (HA : is_single ATerm = true) by reflexivity. assert (HS : is_single SATerm = true) by reflexivity.
    split; [reflexivity|]. split; [left; auto|].
    split; [split; [intros H; destruct (N1 _ HA H)|discriminate]|].
    split; [split; [intros H; destruct (N2 _ HA H)|discriminate]|].
    split; [split; [intros H; destruct (N1 _ HS H)|discriminate]|].
    split; [split; [intros H; destruct (N2 _ HS H)|discriminate]|].
    split; [intros H; destruct (ends_cat_single_nil _ _ sP _ H)|discriminate].
  - cbv zeta in *. destruct IH as (H1 & H2 & H3 & H4 & H5 & H6 & H7). rewrite strack_snoc, last_char_snoc. unfold sred in *. rewrite reduce_snoc.
    unfold sstep. rewrite <- H1. destruct (drops ignored para_sep (t_l (strack b)) x) eqn:E; cbn [t_l t_lx t_ll t_ac t_as t_sc t_ss t_sp].
    + rewrite app_nil_r. auto 10.
    + set (R := reduce ignored para_sep None b) in *.
      assert (KC : forall r p, single r p -> forall v, (ends_with (ZC r) R <-> v = true) -> (ends_with (ZC r) (R ++ [x]) <-> p x || CL x && v = true)).
      { intros r p Hr v Hv. unfold ZC in *. rewrite (ends_cat_star _ _ sC), (ends_single _ _ Hr), Hv, orb_true_iff, andb_true_iff. reflexivity. }
      assert (KS : forall r p, single r p -> forall v w, (ends_with (ZC r) R <-> v = true) -> (ends_with (ZS r) R <-> w = true) ->
        (ends_with (ZS r) (R ++ [x]) <-> (p x || CL x && v) || SP x && w = true)).
      { intros r p Hr v w Hv Hw. unfold ZS in *. rewrite (ends_cat_star _ _ sS). fold (ZC r). rewrite (KC _ _ Hr v Hv).
        fold (ZC r) in Hw. rewrite Hw, (orb_true_iff (_ || _)), (andb_true_iff (SP x)). reflexivity. }
      assert (SA : single ATerm AT) by (apply single_spred; reflexivity).
      assert (SS : single SATerm SAT) by (apply single_spred; reflexivity).
      split; [reflexivity|]. split; [eapply last2_snoc; eauto|].
      split; [apply KC; auto|]. split; [apply KS; auto|]. split; [apply KC; auto|]. split; [apply KS; auto|].
      rewrite (ends_cat_single _ _ sP), H6, andb_true_iff. reflexivity.
Qed.

(** ** Facts about the summary *)
Lemma sp_only : forall c, SP c = true -> AT c = false /\ SAT c = false /\ CL c = false /\ PA c = false.
Proof. intros c. unfold SP, AT, SAT, CL, PA. cbn. unfold sc. destruct (SB c); cbn; auto; discriminate. Qed.
Lemma at_sat : forall c, AT c = true -> SAT c = true.
Proof. intros c. unfold AT, SAT. cbn. unfold sc. destruct (SB c); cbn; auto. Qed.

Lemma strack_inv : forall b, let t := strack b in
  (t_ac t = true -> t_sc t = true) /\ (t_as t = true -> t_ss t = true)
  /\ (t_sc t = true -> t_as t = t_ac t)
  /\ t_ss t = on SAT (t_lx t) || on CL (t_lx t) && t_sc t || on SP (t_lx t) && t_ss t
  /\ (on PA (t_lx t) = true -> on PA (t_l t) = true) /\ (t_sp t = true -> on PA (t_lx t) = true)
  /\ (t_ac t = true -> t_as t = true) /\ (t_sc t = true -> t_ss t = true).
Proof.
  induction b as [|x b IH] using rev_ind.
  - cbn. auto 10.
  - cbv zeta in *. destruct IH as (H1 & H2 & H3 & H4 & H5 & H6 & H7 & H8). rewrite strack_snoc. unfold sstep.
    destruct (drops ignored para_sep (t_l (strack b)) x) eqn:E; cbn [t_l t_lx t_ll t_ac t_as t_sc t_ss t_sp on].
    + repeat split; auto. intros HP. specialize (H5 HP). unfold drops in E. apply andb_prop in E. destruct E as [E1 E2].
      destruct (t_l (strack b)) as [l|]; [|discriminate]. cbn [on] in H5. exfalso. revert H5 E2. unfold PA, para_sep. cbn.
      destruct (sc SB_Sep l), (sc SB_CR l), (sc SB_LF l); discriminate.
    + pose proof (sp_only x) as HS. pose proof (at_sat x) as HA.
      destruct (SP x) eqn:E1.
      { destruct (HS eq_refl) as (-> & -> & -> & ->). cbn [andb orb]. repeat split; auto; try discriminate. }
      destruct (AT x) eqn:E2.
      { rewrite (HA eq_refl). cbn [andb orb]. repeat split; auto. intros H. apply andb_prop in H. tauto. }
      destruct (SAT x), (CL x), (PA x); cbn [andb orb]; repeat split; auto; try discriminate; rewrite ?orb_false_r; auto; try (intros H; apply andb_prop in H; tauto).
      all: destruct (t_sc (strack b)), (t_ss (strack b)); auto.
Qed.

(** ** The decision *)
Fixpoint low (a : text) : bool :=
  match a with [] => false | c :: r => spred Lower c || spred NotStop c && low r end.
Lemma low_spec : forall a, starts_with (Cat (Star NotStop) Lower) a <-> low a = true.
Proof.
  induction a as [|c a IH].
  - rewrite starts_star_cat_nil. split; [intros H; destruct (starts_single_nil _ _ (single_spred Lower eq_refl) H)|discriminate].
  - rewrite (starts_star_cat _ _ (single_spred NotStop eq_refl)), (starts_single _ _ (single_spred Lower eq_refl)), IH.
    cbn [low]. rewrite orb_true_iff, andb_true_iff. reflexivity.
Qed.
Lemma ign_nonstop : forall c, ignored c = true -> spred NotStop c = true /\ spred Lower c = false.
Proof. intros c. unfold ignored, NotStop, Lower, para_sep. cbn. unfold sc. destruct (SB c); cbn; auto; discriminate. Qed.
Lemma low_reduce : forall a prev, low (reduce ignored para_sep prev a) = low a.
Proof.
  induction a as [|c a IH]; intros prev; [reflexivity|]. cbn [reduce].
  destruct (ignored c && _) eqn:E.
  - apply andb_prop in E. destruct (ign_nonstop c (proj1 E)) as [H1 H2]. cbn [low]. rewrite H1, H2. cbn [orb andb]. apply IH.
  - cbn [low]. rewrite IH. reflexivity.
Qed.

Definition s_dec1 (l : option N) (y : N) : option op :=
  if on (spred CR) l && spred LF y then Some Join
  else if on PA l then Some Break
  else if ignored y then Some Join
  else None.
Definition s_dec2 (t : str) (y : N) (F : bool) : op :=
  if on AT (t_lx t) && spred Numeric y then Join
  else if on AT (t_lx t) && on (spred (Alt Upper Lower)) (t_ll t) && spred Upper y then Join
  else if t_as t && F then Join
  else if t_ss t && spred (Alt SContinue SATerm) y then Join
  else if t_sc t && spred (Alt Close (Alt Sp ParaSep)) y then Join
  else if t_ss t && spred (Alt Sp ParaSep) y then Join
  else if t_ss t || t_sp t then Break
  else Join.
Definition s_dec (t : str) (y : N) (F : bool) : op :=
  match s_dec1 (t_l t) y with Some o => o | None => s_dec2 t y F end.

Lemma s_says_raw : forall b x y a, says (b ++ [x]) (y :: a) sentence_rules_1 (s_dec1 (Some x) y).
Proof.
  intros b x y a. destruct (raw_last2 b x) as (ll & HL).
  refine (says_cascade _ _ _ [(_, Join); (_, Break); (_, Join)] _).
  unfold sentence_rules_1.
  repeat (apply Forall2_cons; [split; [cbn [fst]|reflexivity]|]); [..|apply Forall2_nil].
  - eapply app1; eauto.
  - eapply appl; eauto.
  - apply (appr ignored Ignored eq_refl).
Qed.

Lemma s_says_red : forall b y a, says (sred b) (y :: a) sentence_rules_2 (Some (s_dec2 (strack b) y (low (y :: a)))).
Proof.
  intros b y a. destruct (strack_facts b) as (_ & HL & H3 & H4 & H5 & H6 & H7). set (t := strack b) in *.
  set (cs := [ (on AT (t_lx t) && spred Numeric y, Join);
    (on AT (t_lx t) && on (spred (Alt Upper Lower)) (t_ll t) && spred Upper y, Join);
    (t_as t && low (y :: a), Join); (t_ss t && spred (Alt SContinue SATerm) y, Join);
    (t_sc t && spred (Alt Close (Alt Sp ParaSep)) y, Join); (t_ss t && spred (Alt Sp ParaSep) y, Join);
    (t_ss t || t_sp t, Break); (true, Join) ]).
  replace (Some (s_dec2 t y (low (y :: a)))) with (cascade cs).
  2:{ unfold cs, s_dec2. cbn [cascade]. repeat match goal with |- (if ?c then _ else _) = Some (if ?c then _ else _) => destruct c; [reflexivity|] end. reflexivity. }
  apply says_cascade. unfold sentence_rules_2, cs.
  repeat (apply Forall2_cons; [split; [cbn [fst]|reflexivity]|]); [..|apply Forall2_nil];
    try (eapply app1; eauto; fail); try (eapply app2; eauto; fail); unfold applies; cbn [r_left r_right left_applies];
    fold (ZC ATerm) (ZC SATerm); fold (ZS ATerm) (ZS SATerm).
  - change (Cat (ZC ATerm) (Star Sp)) with (ZS ATerm). rewrite H4, low_spec, andb_true_iff. reflexivity.
  - change (Cat (ZC SATerm) (Star Sp)) with (ZS SATerm). rewrite H6, (starts_first (Alt SContinue SATerm)), andb_true_iff by reflexivity. reflexivity.
  - rewrite H5, (starts_first (Alt Close (Alt Sp ParaSep))), andb_true_iff by reflexivity. reflexivity.
  - change (Cat (ZC SATerm) (Star Sp)) with (ZS SATerm). rewrite H6, (starts_first (Alt Sp ParaSep)), andb_true_iff by reflexivity. reflexivity.
  - change (Cat (ZC SATerm) (Star Sp)) with (ZS SATerm). rewrite ends_cat_opt, H6, H7, orb_true_iff. pose proof (starts_any (y :: a)). tauto.
  - pose proof (ends_any (sred b)). pose proof (starts_any (y :: a)). tauto.
Qed.

Lemma s_dec1_drops : forall x y, s_dec1 (Some x) y = None -> drops ignored para_sep (Some x) y = false.
Proof.
  intros x y H. unfold drops. unfold s_dec1 in H.
  repeat match type of H with (if ?c then _ else _) = _ => destruct c eqn:?; try discriminate end. reflexivity.
Qed.

Lemma sentence_spec : forall b x y a,
  sentence_decides (b ++ [x]) (y :: a) (s_dec (strack (b ++ [x])) y (low (y :: a))).
Proof.
  intros b x y a. destruct (strack_facts (b ++ [x])) as (H1 & _). rewrite last_char_snoc in H1.
  unfold s_dec, sentence_decides. rewrite H1, last_char_snoc. pose proof (s_says_raw b x y a) as HR.
  destruct (s_dec1 (Some x) y) as [o|] eqn:E; [left; exact HR|]. right. split; [exact HR|].
  cbn [reduce]. pose proof (s_dec1_drops x y E) as HD. unfold drops in HD. rewrite HD.
  replace (low (y :: a)) with (low (y :: reduce ignored para_sep (Some y) a)); [apply s_says_red|].
  cbn [low]. rewrite low_reduce. reflexivity.
Qed.

Lemma sentence_fun : forall b a o1 o2, sentence_decides b a o1 -> sentence_decides b a o2 -> o1 = o2.
Proof.
  intros b a o1 o2 [H|[H H']] [K|[K K']]; pose proof (says_fun _ _ _ _ _ H K) as E; try discriminate; try (injection E; auto).
  pose proof (says_fun _ _ _ _ _ H' K') as E2. injection E2. auto.
Qed.
