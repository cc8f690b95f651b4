(** words with Joiners: every boundary the code makes is a boundary of the rules with middle joiners; and the
    converse when there are no leading joiners. *)
From Verif Require Import Base ListFacts Trie LookupFacts TableFacts Engine Lk Seek SeekText SpecUtf8 SpecUcd SpecLookup SpecIter SpecRules SpecWords SpecJoined
  RuleFacts BitFacts WordFacts Conform UcdFacts UcdWords TableWords WordsEngine WordsConform JoinedFacts DecodeFacts Utf8.
From Verif Require Words.
Import Words.
Local Open Scope N_scope.

Definition mV : list N := Eval vm_compute in wV ++ map (fun v => N.lor v _MidNumLet) wV.

Ltac fin_j := split; [discriminate||(intros; reflexivity)|]; split; [discriminate || (intros; reflexivity)|];
  first [left; split; [reflexivity|]; intros ?; first [discriminate | split; [reflexivity|lia]] | right; repeat split; reflexivity].

Section Joined.
  Variables mid lead : N -> bool.
  Notation M := (M mid).
  Notation mval := (mval mid).
  Definition L (x : N) : N := if lead x then N.lor (P x) _AHLetter else P x.
  Definition nolead : Prop := forall x, lead x = false.

  Lemma M_in : forall c, scalar c -> In (M c) mV.
  Proof.
    intros c Hc. unfold JoinedFacts.M. assert (HV : mV = wV ++ map (fun v => N.lor v _MidNumLet) wV) by reflexivity. rewrite HV.
    apply in_or_app. destruct (mid c); [right; apply (in_map (fun v => N.lor v _MidNumLet)); apply P_in; exact Hc|left; apply P_in; exact Hc].
  Qed.

  (** [v'], a value in the code, stands for [v]: it may lack the middle joiner bit (at the start of a token) or have the
      letter bits in addition (leading joiner). *)
  Definition ext (v v' : N) : Prop :=
    (forall p, is p (N.lor _MidNumLet _AHLetter) = false -> is v' p = is v p)
    /\ (is v _ALetter = true -> is v' _ALetter = true) /\ (is v _HebrewLetter = true -> is v' _HebrewLetter = true)
    /\ (is v' _MidNumLet = true -> is v _MidNumLet = true)
    /\ (nolead -> is v' _ALetter = is v _ALetter /\ is v' _HebrewLetter = is v _HebrewLetter).
  Lemma ext_refl : forall v, ext v v.
  Proof. intros v. unfold ext. tauto. Qed.
  Lemma disj : forall p m, is p m = false -> forall q, is m q = true -> is q m = true -> True.
  Proof. auto. Qed.
  Lemma is_sym : forall p q, is p q = is q p.
  Proof. intros. unfold is. rewrite N.land_comm. reflexivity. Qed.
  Lemma ext_L : forall x, ext (M x) (L x).
  Proof.
    intros x. unfold ext, L.
    assert (G : forall p, is p (N.lor _MidNumLet _AHLetter) = false -> is _MidNumLet p = false /\ is _AHLetter p = false).
    { intros p H. rewrite is_lor_r in H. apply orb_false_iff in H. rewrite (is_sym _MidNumLet), (is_sym _AHLetter). exact H. }
    split; [|split; [|split; [|split]]].
    - intros p H. destruct (G p H) as [G1 G2]. rewrite M_other by exact G1. destruct (lead x); [|reflexivity]. rewrite is_lor_l, G2. apply orb_false_r.
    - rewrite M_other by reflexivity. intros H. destruct (lead x); [|exact H]. rewrite is_lor_l, H. reflexivity.
    - rewrite M_other by reflexivity. intros H. destruct (lead x); [|exact H]. rewrite is_lor_l, H. reflexivity.
    - rewrite M_is. destruct (lead x); [|intros ->; reflexivity]. rewrite is_lor_l. change (is _AHLetter _MidNumLet) with false. rewrite orb_false_r. intros ->. reflexivity.
    - intros HN. rewrite (HN x), !M_other by reflexivity. split; reflexivity.
  Qed.

  Definition guards_j (n lx lx' llm lls : N) : Prop :=
    (is n _AHLetter = true -> is lx _ML = true -> is lls _AHLetter = true -> is lx' _ML = true /\ is llm _AHLetter = true)
    /\ (is n _HebrewLetter = true -> is lx _DoubleQuote = true -> is lls _HebrewLetter = true -> is llm _HebrewLetter = true)
    /\ (is n _Numeric = true -> is lx _MN = true -> is lls _Numeric = true -> is lx' _MN = true /\ is llm _Numeric = true)
    /\ (nolead -> (is n _AHLetter = true -> is lx' _ML = true -> is llm _AHLetter = true -> is lls _AHLetter = true)
        /\ (is n _HebrewLetter = true -> is lx' _DoubleQuote = true -> is llm _HebrewLetter = true -> is lls _HebrewLetter = true)
        /\ (is n _Numeric = true -> is lx' _MN = true -> is llm _Numeric = true -> is lls _Numeric = true)).

  Lemma w_rules_j : forall l l' lx lx' llm lls ri run c n w k after, In c mV ->
    (forall props, subsequent props after true = Ok (if is n props then Some k else None, false)) ->
    ext l l' -> ext lx lx' ->
    (is l _NL = true -> is lx _Numeric = false /\ is lx _AHLetter = false /\ is l _WSegSpace = false) ->
    (is l _NL = false -> guards_j c lx lx' llm lls) ->
    (is lx _RegionalIndicator = true -> Nat.odd run = Nat.even ri) -> (is lx _RegionalIndicator = false -> run = 0%nat) ->
    match w_rules c l' lx' llm ri w after true with
    | Ok WBreak => vdec l lx lls run c n = Break
    | Ok (WJoin adv ri') => (nolead -> vdec l lx lls run c n = Join)
        /\ (is c _Ignore = true -> is l _NL = false)
        /\ (is c _RegionalIndicator = false -> ri' = ri)
        /\ (adv = w /\ (is c _RegionalIndicator = true -> is lx _RegionalIndicator = true /\ ri' = S ri) \/ adv = (w + k)%nat /\ is c _Ignore = false /\ is c _NL = false /\ jumps c lx' n = true)
    | _ => False
    end.
  Proof.
    intros l l' lx lx' llm lls ri run c n w k after Hc HS HEl HEx HNL HG R1 R2. unfold guards_j in HG.
    destruct HEl as (El & _). destruct HEx as (Ex & EA & EH & EM & EL).
    unfold w_rules, vdec, vdec1, vdec2, lookahead, jumps. rewrite !HS. cbn [bind]. rewrite is_lor_l.
    change _WSegSpace with (2 ^ 18). rewrite is_land. change (2 ^ 18) with _WSegSpace.
    replace (Nat.eqb ((ri + 1) mod 2) 1) with (Nat.even ri).
    2:{ rewrite <- (Nat.bit0_mod (ri + 1)). rewrite Nat.bit0_odd, Nat.add_1_r, Nat.odd_succ. destruct (Nat.even ri); reflexivity. }
    fold _NL. fold _ML. fold _MN. fold _A4. fold _A3.
    assert (R3 : is lx _RegionalIndicator && Nat.even ri = Nat.odd run).
    { destruct (is lx _RegionalIndicator); [rewrite R1 by reflexivity; reflexivity|rewrite R2 by reflexivity; reflexivity]. }
    rewrite (El _WSegSpace), (El _CR), (El _NL), (El _ZWJ) by reflexivity.
    rewrite (Ex _DoubleQuote), (Ex _Katakana), (Ex _ExtendNumLet), (Ex _RegionalIndicator) in * by reflexivity.
    rewrite (Ex _Numeric) in * by reflexivity.
    clear R1 R2 HS El.
    unfold _A4, _A3, _ML, _MN, _AHLetter, _MidNumLetQ in *. rewrite ?is_lor_r in *.
    rewrite (Ex _Numeric), (Ex _Katakana), (Ex _ExtendNumLet), (Ex _MidLetter), (Ex _MidNum), (Ex _SingleQuote) in * by reflexivity. clear Ex.
    destruct (is l _NL) eqn:EN.
    - destruct (HNL eq_refl) as (U1 & U2 & U3). apply orb_false_iff in U2. destruct U2 as [U2 U4]. rewrite U1, U3 in *. cbn [orb]. rewrite !andb_false_r.
      clear HNL HG R3.
      assert (EQ : nolead -> is lx' _ALetter || is lx' _HebrewLetter = false).
      { intros HL. destruct (EL HL) as [-> ->]. rewrite U2, U4. reflexivity. }
      destruct (is lx' _ALetter || is lx' _HebrewLetter) eqn:EQ2.
      + unfold mV in Hc. cbn [In] in Hc.
        repeat (destruct Hc as [<-|Hc]; [eval_is; cbn [andb orb] |]); [..|contradiction];
        repeat match goal with |- context [is l _CR] => destruct (is l _CR); cbn [andb orb] end; try reflexivity;
        (split; [first [reflexivity | intros HL; specialize (EQ HL); discriminate] |]; fin_j).
      + clear EQ. rewrite !andb_false_r. cbn [andb orb]. unfold mV in Hc. cbn [In] in Hc.
        repeat (destruct Hc as [<-|Hc]; [eval_is; cbn [andb orb] |]); [..|contradiction];
        repeat match goal with |- context [is l _CR] => destruct (is l _CR); cbn [andb orb] end; try reflexivity;
        (split; [reflexivity|]; fin_j).
    - clear HNL. destruct (HG eq_refl) as (G7 & G7c & G11 & GN). clear HG.
      assert (EC : is l _CR = false). { unfold _NL in EN. rewrite !is_lor_r in EN. apply orb_false_iff in EN. destruct EN as [_ EN]. apply orb_false_iff in EN. tauto. }
      rewrite EC. rewrite !andb_false_r. cbn [andb orb]. clear EC EN. rewrite <- R3. clear R3.
      unfold mV in Hc. cbn [In] in Hc.
      repeat (destruct Hc as [<-|Hc];
        [eval_is_in G7; eval_is_in G7c; eval_is_in G11; eval_is_in GN; eval_is;
         cbn [andb orb negb] in *; rewrite ?andb_false_r, ?andb_true_r in *; cbn [andb orb negb] in * |]); [..|contradiction].
      all: try (clear; reflexivity).
      all: revert EA EH EM EL G7 G7c G11 GN.
      all: repeat (match goal with
        | |- context [if ?b then _ else _] => match b with context [is ?x ?p] => destruct (is x p) | Nat.even _ => destruct b end
        end; cbn [andb orb negb]).
      all: intros EA EH EM EL G7 G7c G11 GN.
      all: try reflexivity.
      all: try (exfalso; clear EM EL GN; first [discriminate (EA eq_refl) | discriminate (EH eq_refl)
         | destruct (G7 eq_refl eq_refl eq_refl); discriminate | destruct (G11 eq_refl eq_refl eq_refl); discriminate | discriminate (G7c eq_refl eq_refl eq_refl) ]; fail).
      all: try (split; [intros HL; first [reflexivity | exfalso; destruct (EL HL) as [e1 e2]; first [discriminate e1 | discriminate e2 |
          destruct (GN HL) as (g1 & g2 & g3); first [discriminate (g1 eq_refl eq_refl eq_refl) | discriminate (g2 eq_refl eq_refl eq_refl) | discriminate (g3 eq_refl eq_refl eq_refl) | discriminate (EM eq_refl)]]]
        | clear; fin_j]; fail).
  Qed.

  Lemma jumps_y : forall c lx y, jumps c lx y = true -> is y (N.lor _AHLetter _Numeric) = true.
  Proof.
    intros c lx y H. unfold jumps in H. unfold _AHLetter in *. rewrite !is_lor_r in *.
    destruct (is y _ALetter), (is y _HebrewLetter), (is y _Numeric); auto. cbn [orb] in H. rewrite !andb_false_r in H. exact H.
  Qed.
  Lemma zwj_ign : forall c, is c _Ignore = false -> is c _ZWJ = false.
  Proof. intros c H. unfold _Ignore in H. rewrite !is_lor_r in H. apply orb_false_iff in H. destruct H as [_ H]. apply orb_false_iff in H. tauto. Qed.

  (** After a successful lookahead the loop continues at the character found, and joins it. *)
  Lemma w_jump_j : forall c lx ri y w after, In y mV -> is c _NL = false -> is c _Ignore = false -> jumps c lx y = true ->
    w_rules y c c lx ri w after true = Ok (WJoin w ri).
  Proof.
    intros c lx ri y w after Hy HN HI HJ. pose proof (jumps_y _ _ _ HJ) as HY. unfold jumps in HJ.
    unfold w_rules, lookahead. rewrite is_lor_l.
    change _WSegSpace with (2 ^ 18). rewrite is_land. change (2 ^ 18) with _WSegSpace.
    fold _NL. fold _ML. fold _MN. rewrite HN, (zwj_ign _ HI). rewrite !andb_false_r. cbn [orb].
    assert (HQ : is c (N.lor _Numeric _AHLetter) = is c _Numeric || is c _AHLetter) by apply is_lor_r. rewrite HQ. clear HQ HN HI.
    unfold mV in Hy. cbn [In] in Hy.
    repeat (destruct Hy as [<-|Hy]; [first [discriminate HY | eval_is_in HJ; cbn [andb orb] in HJ; rewrite ?andb_false_r, ?andb_true_r in HJ; cbn [andb orb] in HJ; eval_is; cbn [andb orb]] |]);
      [..|contradiction];
    destruct (is c _AHLetter); rewrite ?orb_true_r; try reflexivity; destruct (is c _Numeric); try reflexivity; cbn [andb orb];
    repeat match type of HJ with context [is c ?p] => destruct (is c p); cbn [andb orb] in * end; try discriminate HJ;
    repeat match type of HJ with context [is lx ?p] => destruct (is lx p); cbn [andb orb] in * end; try discriminate HJ; try reflexivity.
  Qed.
  Lemma v_jump_j : forall l c lx y n, is l _NL = false -> In y mV -> jumps c lx y = true ->
    forall run, vdec l c lx run y n = Join.
  Proof.
    intros l c lx y n E1 Hy HJ run. pose proof (jumps_y _ _ _ HJ) as HY. unfold jumps in HJ.
    assert (E2 : is l _CR = false). { unfold _NL in E1. rewrite !is_lor_r in E1. apply orb_false_iff in E1. destruct E1 as [_ E1]. apply orb_false_iff in E1. tauto. }
    unfold vdec, vdec1. rewrite E1, E2. cbn [andb]. rewrite vdec2_flat. clear E1 E2.
    unfold mV in Hy. cbn [In] in Hy.
    repeat (destruct Hy as [<-|Hy]; [first [discriminate HY | eval_is_in HJ; cbn [andb orb] in HJ; rewrite ?andb_false_r, ?andb_true_r in HJ; cbn [andb orb] in HJ; eval_is; cbn [andb orb]] |]);
      [..|contradiction];
    repeat match goal with |- context [if is l ?p && _ then _ else _] => destruct (is l p); cbn [andb] end; try reflexivity;
    repeat match type of HJ with context [is c ?p] => destruct (is c p); cbn [andb orb] in * end; try discriminate HJ;
    repeat match type of HJ with context [is lx ?p] => destruct (is lx p); cbn [andb orb] in * end; try discriminate HJ; rewrite ?orb_true_r, ?andb_true_r; cbn [orb]; rewrite ?orb_true_r; try reflexivity.
  Qed.
End Joined.
