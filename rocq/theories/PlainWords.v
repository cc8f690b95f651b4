(** Plain text: words. *)
From Verif Require Import Base ListFacts Trie LookupFacts TableFacts Engine Lk Seek SeekText SpecUtf8 SpecUcd SpecLookup SpecIter SpecRules SpecWords SpecPlain
  RuleFacts BitFacts WordFacts Conform UcdFacts UcdWords TableWords WordsEngine WordsConform.
From Verif Require Words.
Import Words.
Local Open Scope N_scope.

Lemma plain_word_dec : forall b x y a, plain_word x = true -> plain_word y = true ->
  word_decides (b ++ [x]) (y :: a) (if stays_word x y then Join else Break).
Proof.
  intros b x y a Hx Hy. pose proof (w_spec b x y a) as H. cbv zeta in H.
  assert (Ix : is (P x) _Ignore = false) by (rewrite <- c_IG; unfold plain_word in Hx; destruct (ignored x); [discriminate|reflexivity]).
  rewrite (wtrack_lx b x Ix) in H.
  assert (Rx : is (P x) _RegionalIndicator = false).
  { rewrite <- (c_RI x). cbn [spred RI]. unfold plain_word in Hx. destruct (wc WB_Regional_Indicator x); [rewrite !orb_true_r in Hx; discriminate|reflexivity]. }
  rewrite (wtrack_run (b ++ [x])) in H by (rewrite (wtrack_lx b x Ix); exact Rx).
  revert H. generalize (val (w_ll (wtrack (b ++ [x])))) (nextv a). intros ll n.
  replace (vdec (P x) (P x) ll 0 (P y) n) with (if stays_word x y then Join else Break); [auto|].
  unfold vdec, vdec1, vdec2. cbn [Nat.odd andb].
  rewrite <- !c_CR, <- !c_LF, <- !c_NL, <- !c_ZWJ, <- !c_WS, <- !c_IG.
  rewrite <- !(c_AH x), <- !(c_AH y), <- !(c_ML x), <- !(c_ML y), <- !(c_HL x), <- !(c_HL y), <- !(c_DQ x), <- !(c_DQ y), <- !c_SQ,
    <- !(c_NU x), <- !(c_NU y), <- !(c_MN x), <- !(c_MN y), <- !c_KA, <- !c_EN, <- !c_A3, <- !c_A4.
  generalize (is ll _AHLetter) (is ll _HebrewLetter) (is ll _Numeric) (is n _AHLetter) (is n _HebrewLetter) (is n _Numeric) (is (P y) _ExtendedPictographic) (is (P y) _RegionalIndicator). intros l1 l2 l3 n1 n2 n3 e1 e2.
  cbn [spred SpecWords.CR SpecWords.LF Newline SpecWords.ZWJ WSegSpace Katakana AHLetter HebrewLetter DoubleQuote MidNumLetQ MidNumLet MidLetter MidNum SingleQuote Numeric ExtendNumLet].
  unfold stays_word, plain_word, letter, number, katakana, underscore, space, crlf, ignored, al, wc in *.
  revert Hx Hy. generalize (WB x) (WB y). intros wx wy.
  destruct wx; cbn; try discriminate; intros _; destruct wy; cbn; try discriminate; reflexivity.
Qed.
