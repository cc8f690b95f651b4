(** Specification: the word of property bits each package keeps for a character, in terms of the Unicode properties.
    Bit assignments: the constants of /repo/{graphemes,words,sentences,phrases}/trie.go, as they appear in Table*.v. *)
From Verif Require Import Base SpecUcd.
From Verif Require TableGraphemes TableWords TableSentences TablePhrases.
Local Open Scope N_scope.

Definition flag (bit : N) (b : bool) : N := if b then bit else 0.

(** /repo/graphemes: Grapheme_Cluster_Break, Indic_Conjunct_Break, Extended_Pictographic. *)
Section Graphemes.
  Import TableGraphemes.
  Definition gcb_bit (c : gcb) : N :=
    match c with
    | GCB_CR => _CR | GCB_LF => _LF | GCB_Control => _Control | GCB_Extend => _Extend | GCB_ZWJ => _ZWJ
    | GCB_Regional_Indicator => _RegionalIndicator | GCB_Prepend => _Prepend | GCB_SpacingMark => _SpacingMark
    | GCB_L => _L | GCB_V => _V | GCB_T => _T | GCB_LV => _LV | GCB_LVT => _LVT | GCB_Other => 0
    end.
  Definition incb_bit (c : incb) : N :=
    match c with
    | InCB_Consonant => _InCBConsonant | InCB_Linker => _InCBLinker | InCB_Extend => _InCBExtend | InCB_Other => 0
    end.
  Definition graphemes_property (cp : N) : N :=
    N.lor (gcb_bit (GCB cp)) (N.lor (incb_bit (InCB cp)) (flag _ExtendedPictographic (ExtPict cp))).
End Graphemes.

(** /repo/words: Word_Break, Extended_Pictographic, and the package's own ideographic set. *)
Section Words.
  Import TableWords.
  Definition w_bit (c : wb) : N :=
    match c with
    | WB_CR => _CR | WB_LF => _LF | WB_Newline => _Newline | WB_Extend => _Extend | WB_ZWJ => _ZWJ | WB_Format => _Format
    | WB_Regional_Indicator => _RegionalIndicator | WB_Katakana => _Katakana | WB_Hebrew_Letter => _HebrewLetter
    | WB_ALetter => _ALetter | WB_Single_Quote => _SingleQuote | WB_Double_Quote => _DoubleQuote
    | WB_MidNumLet => _MidNumLet | WB_MidLetter => _MidLetter | WB_MidNum => _MidNum | WB_Numeric => _Numeric
    | WB_ExtendNumLet => _ExtendNumLet | WB_WSegSpace => _WSegSpace | WB_Other => 0
    end.
  Definition words_property (cp : N) : N :=
    N.lor (w_bit (WB cp)) (N.lor (flag _ExtendedPictographic (ExtPict cp)) (flag _BleveIdeographic (BleveIdeographic cp))).
End Words.

(** /repo/phrases: Word_Break and Extended_Pictographic. *)
Section Phrases.
  Import TablePhrases.
  Definition p_bit (c : wb) : N :=
    match c with
    | WB_CR => _CR | WB_LF => _LF | WB_Newline => _Newline | WB_Extend => _Extend | WB_ZWJ => _ZWJ | WB_Format => _Format
    | WB_Regional_Indicator => _RegionalIndicator | WB_Katakana => _Katakana | WB_Hebrew_Letter => _HebrewLetter
    | WB_ALetter => _ALetter | WB_Single_Quote => _SingleQuote | WB_Double_Quote => _DoubleQuote
    | WB_MidNumLet => _MidNumLet | WB_MidLetter => _MidLetter | WB_MidNum => _MidNum | WB_Numeric => _Numeric
    | WB_ExtendNumLet => _ExtendNumLet | WB_WSegSpace => _WSegSpace | WB_Other => 0
    end.
  Definition phrases_property (cp : N) : N :=
    N.lor (p_bit (WB cp)) (flag _ExtendedPictographic (ExtPict cp)).
End Phrases.

(** /repo/sentences: Sentence_Break. *)
Section Sentences.
  Import TableSentences.
  Definition s_bit (c : sb) : N :=
    match c with
    | SB_CR => _CR | SB_LF => _LF | SB_Extend => _Extend | SB_Sep => _Sep | SB_Format => _Format | SB_Sp => _Sp
    | SB_Lower => _Lower | SB_Upper => _Upper | SB_OLetter => _OLetter | SB_Numeric => _Numeric | SB_ATerm => _ATerm
    | SB_SContinue => _SContinue | SB_STerm => _STerm | SB_Close => _Close | SB_Other => 0
    end.
  Definition sentences_property (cp : N) : N := s_bit (SB cp).
End Sentences.
