(** The word rules with middle joiners, read as a decision on property values. *)
From Verif Require Import Base ListFacts Trie SpecUtf8 SpecUcd SpecLookup SpecRules SpecWords SpecJoined SeekText
  RuleFacts BitFacts WordFacts TableFacts UcdFacts UcdWords TableWords WordsConform.
From Verif Require Words.
Import Words.
Local Open Scope N_scope.

(** Join rules put in before the last rule. *)
Lemma says_insert : forall b a front more o o2, Forall (fun r => r_op r = Join) front ->
  says b a (front ++ [Rule (Suffix Any) Break Any]) (Some o) -> says b a (more ++ [Rule (Suffix Any) Break Any]) (Some o2) ->
  says b a (front ++ more ++ [Rule (Suffix Any) Break Any]) (Some (match o with Join => Join | Break => o2 end)).
Proof.
  intros b a front more o o2 HF. revert o. induction front as [|r front IH]; intros o H H2.
  - cbn [app] in *. inversion H; subst; [exact H2|]. inversion H5.
  - inversion HF; subst. cbn [app] in *. inversion H; subst.
    + rewrite H3. rewrite <- H3. apply says_this. assumption.
    + apply says_next; [assumption|]. apply IH; assumption.
Qed.

Section Middle.
  Variable mid : N -> bool.
  Definition M (x : N) : N := if mid x then N.lor (P x) _MidNumLet else P x.
  Definition mval (o : option N) : N := match o with Some x => if ignored x then 0 else M x | None => 0 end.

  Lemma M_is : forall x p, is (M x) p = is (P x) p || (mid x && is _MidNumLet p).
  Proof. intros. unfold M. destruct (mid x); [apply is_lor_l|rewrite orb_false_r; reflexivity]. Qed.
  Lemma M_other : forall x p, is _MidNumLet p = false -> is (M x) p = is (P x) p.
  Proof. intros x p H. rewrite M_is, H, andb_false_r. apply orb_false_r. Qed.
  Lemma mval_other : forall o p, is _MidNumLet p = false -> is (mval o) p = is (val o) p.
  Proof. intros [x|] p H; [|reflexivity]. cbn [mval val]. destruct (ignored x); [reflexivity|]. apply M_other. exact H. Qed.
  Definition midv (o : option N) : bool := match o with Some x => mid x && negb (ignored x) | None => false end.
  Lemma mval_mid : forall o p, is _MidNumLet p = true -> is (mval o) p = is (val o) p || midv o.
  Proof.
    intros [x|] p H; [|reflexivity]. cbn [mval val midv]. destruct (ignored x); [rewrite andb_false_r; reflexivity|].
    rewrite M_is, H, !andb_true_r. reflexivity.
  Qed.

  (** An ignored character that was kept follows a line end or nothing. *)
  Lemma kept_ll : forall b x, w_lx (wtrack b) = Some x -> ignored x = true ->
    is (val (w_ll (wtrack b))) _AHLetter = false /\ is (val (w_ll (wtrack b))) _Numeric = false.
  Proof.
    induction b as [|c b IH] using rev_ind; intros x; [discriminate|]. rewrite wtrack_snoc. unfold wstep.
    destruct (drops _ _ _ _) eqn:E; cbn [w_lx w_ll]; [apply IH|]. intros H HI. injection H as <-.
    unfold drops in E. rewrite HI in E. cbn [andb] in E. destruct (w_l (wtrack b)) as [l|] eqn:EL.
    - apply negb_false_iff in E. rewrite c_LE in E.
      destruct (wtrack_facts b) as (HL & _). rewrite HL in EL. destruct b as [|z b _] using rev_ind; [discriminate|].
      rewrite last_char_snoc in EL. injection EL as ->.
      assert (HN : is (P l) _Ignore = false) by (revert E; clear; revert l; no_ign).
      rewrite wtrack_lx by exact HN. revert E. clear. unfold _AHLetter. revert l.
      assert (G : forall c, is (P c) _NL = true -> is (P c) _AHLetter = false) by no_ign.
      assert (G2 : forall c, is (P c) _NL = true -> is (P c) _Numeric = false) by no_ign.
      intros l E. split; [apply G|apply G2]; exact E.
    - destruct (wtrack_facts b) as (HL & _). rewrite HL in EL. destruct b as [|z b _] using rev_ind; [split; reflexivity|].
      rewrite last_char_snoc in EL. discriminate.
  Qed.

  Definition extra (lx ll : option N) (y : N) (n : option N) : bool :=
    is (val lx) _AHLetter && (mid y && is (val n) _AHLetter)
    || on mid lx && is (val ll) _AHLetter && is (P y) _AHLetter
    || on mid lx && is (val ll) _Numeric && is (P y) _Numeric
    || is (val lx) _Numeric && (mid y && is (val n) _Numeric).

  Lemma says_joined : forall t lx ll y a, last2 t lx ll ->
    says t (y :: a) (word_rules_2 al (middle_rules mid))
      (Some (match word_dec2 al [] lx ll (trun wri t) y (hd_error a) with Join => Join
             | Break => if extra lx ll y (hd_error a) then Join else Break end)).
  Proof.
    intros t lx ll y a HL. unfold word_rules_2. apply says_insert.
    - repeat constructor.
    - pose proof (says_red al [] eq_refl t lx ll y a HL) as H. exact H.
    - unfold extra.
      set (AH := spred (AHLetter al)). set (NU := spred Numeric).
      assert (E : (if is (val lx) _AHLetter && (mid y && is (val (hd_error a)) _AHLetter)
                    || on mid lx && is (val ll) _AHLetter && is (P y) _AHLetter
                    || on mid lx && is (val ll) _Numeric && is (P y) _Numeric
                    || is (val lx) _Numeric && (mid y && is (val (hd_error a)) _Numeric) then Join else Break)
        = if on AH lx && (mid y && on AH (hd_error a)) then Join else if on mid lx && on AH ll && AH y then Join
          else if on mid lx && on NU ll && NU y then Join else if on NU lx && (mid y && on NU (hd_error a)) then Join else Break).
      { unfold AH, NU. rewrite !(fun o => on_v _ _ o c_AH) by no_ign. rewrite !(fun o => on_v _ _ o c_NU) by no_ign. rewrite c_AH, c_NU.
        repeat match goal with |- _ = (if ?c then _ else _) => destruct c; cbn [orb]; rewrite ?orb_true_r; try reflexivity end. }
      rewrite E. clear E.
      pose (cs := [(on AH lx && (mid y && on AH (hd_error a)), Join); (on mid lx && on AH ll && AH y, Join);
                   (on mid lx && on NU ll && NU y, Join); (on NU lx && (mid y && on NU (hd_error a)), Join); (true, Break)]).
      match goal with |- says _ _ _ ?v => replace v with (cascade cs) end.
      2:{ unfold cs. cbn [cascade]. repeat match goal with |- context [if ?c then _ else _] => destruct c; try reflexivity end. }
      apply says_cascade. unfold cs, middle_rules. cbn [app].
      repeat (apply Forall2_cons; [split; [cbn [fst]|reflexivity]|]); [..|apply Forall2_nil].
      + exact (app3 Letter (Cls mid) Letter eq_refl eq_refl eq_refl _ t lx ll y a HL).
      + exact (app2 Letter (Cls mid) Letter eq_refl eq_refl eq_refl _ t lx ll y a HL).
      + exact (app2 Numeric (Cls mid) Numeric eq_refl eq_refl eq_refl _ t lx ll y a HL).
      + exact (app3 Numeric (Cls mid) Numeric eq_refl eq_refl eq_refl _ t lx ll y a HL).
      + unfold applies. cbn [r_left r_right left_applies]. pose proof (ends_any t). pose proof (starts_any (y :: a)). tauto.
  Qed.

  Lemma vdec2_flat : forall lx ll run c n, vdec2 lx ll run c n = if
    is lx _AHLetter && is c _AHLetter || is lx _AHLetter && (is c _ML && is n _AHLetter) || is lx _ML && is ll _AHLetter && is c _AHLetter
    || is lx _HebrewLetter && is c _SingleQuote || is lx _HebrewLetter && (is c _DoubleQuote && is n _HebrewLetter)
    || is lx _DoubleQuote && is ll _HebrewLetter && is c _HebrewLetter || is lx _Numeric && is c _Numeric || is lx _AHLetter && is c _Numeric
    || is lx _Numeric && is c _AHLetter || is lx _MN && is ll _Numeric && is c _Numeric || is lx _Numeric && (is c _MN && is n _Numeric)
    || is lx _Katakana && is c _Katakana || is lx _A4 && is c _ExtendNumLet || is lx _ExtendNumLet && is c _A3
    || Nat.odd run && is c _RegionalIndicator then Join else Break.
  Proof.
    intros. unfold vdec2.
    repeat match goal with |- (if ?c then _ else _) = _ => destruct c; rewrite ?orb_true_r; cbn [orb]; try reflexivity end.
  Qed.

  Lemma joined_dec : forall b y n, let t := wtrack b in is (P y) _Ignore = false ->
    match vdec2 (val (w_lx t)) (val (w_ll t)) (w_run t) (P y) (val n) with Join => Join
    | Break => if extra (w_lx t) (w_ll t) y n then Join else Break end
    = vdec2 (mval (w_lx t)) (mval (w_ll t)) (w_run t) (M y) (val n).
  Proof.
    intros b y n t HI. rewrite !vdec2_flat. unfold extra.
    assert (K : on mid (w_lx t) && is (val (w_ll t)) _AHLetter = midv (w_lx t) && is (val (w_ll t)) _AHLetter
      /\ on mid (w_lx t) && is (val (w_ll t)) _Numeric = midv (w_lx t) && is (val (w_ll t)) _Numeric).
    { destruct (w_lx t) as [x|] eqn:E; [|split; reflexivity]. cbn [on midv]. destruct (ignored x) eqn:EI; [|rewrite andb_true_r; split; reflexivity].
      destruct (kept_ll b x E EI) as [K1 K2]. fold t in K1, K2. rewrite K1, K2, !andb_false_r. split; reflexivity. }
    destruct K as [-> ->].
    rewrite !(mval_mid _ _ML), !(mval_mid _ _MN), !(M_is y _ML), !(M_is y _MN) by reflexivity.
    change (is _MidNumLet _ML) with true. change (is _MidNumLet _MN) with true. rewrite !andb_true_r.
    rewrite !mval_other, !M_other by reflexivity.
    match goal with |- (match (if ?A then _ else _) with _ => _ end) = _ => destruct A eqn:EA end.
    - match goal with |- _ = (if ?B then _ else _) => replace B with true; [reflexivity|symmetry] end.
      repeat match goal with H : _ || _ = true |- _ => apply orb_prop in H; destruct H as [H|H] end;
      repeat match goal with H : _ && _ = true |- _ => apply andb_prop in H; destruct H end;
      repeat match goal with H : ?x = true |- context [?x] => rewrite H end; cbn [andb orb]; rewrite ?orb_true_r, ?andb_true_r; cbn [andb orb]; rewrite ?orb_true_r, ?andb_true_r; cbn [andb orb]; rewrite ?orb_true_r; reflexivity.
    - repeat match goal with H : _ || _ = false |- _ => apply orb_false_iff in H; destruct H as [? H] end.
      repeat match goal with H : _ || _ = false |- _ => apply orb_false_iff in H; destruct H end.
      apply (f_equal (fun b : bool => if b then Join else Break)). apply eq_true_iff_eq.
      rewrite !orb_true_iff, !andb_true_iff, !orb_true_iff.
      repeat match goal with H : _ && _ = false |- _ => apply (f_equal negb), (fun H => proj1 (not_true_iff_false _) (proj1 (negb_true_iff _) H)) in H || (apply not_true_iff_false in H) end.
      repeat match goal with H : ~ (_ && _ = true) |- _ => rewrite !andb_true_iff in H end. tauto.
  Qed.

  Lemma m_spec : forall b x y a, joined_decides mid (b ++ [x]) (y :: a)
    (let t := wtrack (b ++ [x]) in vdec (M x) (mval (w_lx t)) (mval (w_ll t)) (w_run t) (M y) (nextv a)).
  Proof.
    intros b x y a. cbv zeta. destruct (wtrack_facts (b ++ [x])) as (H1 & H2 & H3). rewrite last_char_snoc in H1.
    set (t := wtrack (b ++ [x])) in *.
    assert (E1 : vdec1 (M x) (M y) = vdec1 (P x) (P y)) by (unfold vdec1; rewrite !M_other by reflexivity; reflexivity).
    unfold joined_decides, word_like, vdec. rewrite E1. pose proof (says_raw al b x y a) as HR. rewrite dec1_v in HR. cbn [lval] in HR.
    destruct (vdec1 (P x) (P y)) as [o|] eqn:E; [left; exact HR|]. right. split; [exact HR|]. rewrite last_char_snoc.
    cbn [reduce]. pose proof (dec1_drops x y) as HD. rewrite dec1_v in HD. cbn [lval] in HD. specialize (HD E). unfold drops in HD. rewrite HD.
    pose proof (says_joined _ _ _ y (reduce ignored line_end (Some y) a) H2) as HS.
    rewrite dec2_v in HS. fold (after_red y a) in HS.
    assert (HI : is (P y) _Ignore = false). { unfold vdec1 in E. repeat match type of E with (if ?c then _ else _) = _ => destruct c eqn:?; try discriminate end. reflexivity. }
    assert (HN : line_end y = false). { rewrite c_LE. unfold vdec1 in E. repeat match type of E with (if ?c then _ else _) = _ => destruct c eqn:?; try discriminate end. reflexivity. }
    rewrite <- H3 in HS. unfold t in HS. rewrite joined_dec in HS by exact HI. rewrite after_red_v in HS by exact HN. exact HS.
  Qed.
End Middle.
