(** Specification: word boundaries, UAX #29 section 4.1.1 (Unicode 17), and the phrase tailoring of /repo/phrases. *)
From Verif Require Import Base SpecUcd SpecRules.
Local Open Scope rule_scope.

Definition wc (k : wb) (c : N) : bool := wb_beq (WB c) k.

Definition CR := Cls (wc WB_CR).
Definition LF := Cls (wc WB_LF).
Definition Newline := Cls (wc WB_Newline).
Definition ZWJ := Cls (wc WB_ZWJ).
Definition ExtPict_ := Cls ExtPict.
Definition WSegSpace := Cls (wc WB_WSegSpace).
Definition Katakana := Cls (wc WB_Katakana).
Definition HebrewLetter := Cls (wc WB_Hebrew_Letter).
Definition SingleQuote := Cls (wc WB_Single_Quote).
Definition DoubleQuote := Cls (wc WB_Double_Quote).
Definition MidNumLet := Cls (wc WB_MidNumLet).
Definition MidLetter := Cls (wc WB_MidLetter).
Definition MidNum := Cls (wc WB_MidNum).
Definition Numeric := Cls (wc WB_Numeric).
Definition ExtendNumLet := Cls (wc WB_ExtendNumLet).
Definition RI := Cls (wc WB_Regional_Indicator).
Definition NotRI := Cls (fun c => negb (wc WB_Regional_Indicator c)).
Definition MidNumLetQ := Alt MidNumLet SingleQuote.

(** WB4: the characters that are ignored, and those after which they are not. *)
Definition ignored (c : N) : bool := wc WB_Extend c || wc WB_Format c || wc WB_ZWJ c.
Definition line_end (c : N) : bool := wc WB_Newline c || wc WB_CR c || wc WB_LF c.
Definition Ignored := Cls ignored.

(** The rules up to WB4, on the text as it is. *)
Definition word_rules_1 : list rule := [
  (* WB3 *)    Suffix CR × LF;
  (* WB3a *)   Suffix (Alt Newline (Alt CR LF)) ÷ Any;
  (* WB3b *)   Suffix Any ÷ Alt Newline (Alt CR LF);
  (* WB3c *)   Suffix ZWJ × ExtPict_;
  (* WB3d *)   Suffix WSegSpace × WSegSpace;
  (* WB4 *)    Suffix Any × Ignored
].

Section Rules.
  (** The characters that count as ALetter, and additional rules. *)
  Variable aletter : N -> bool.
  Variable more_rules : list rule.
  Definition AHLetter := Alt (Cls aletter) HebrewLetter.

  (** The rules after WB4, on the text without the ignored characters. *)
  Definition word_rules_2 : list rule := [
    (* WB5 *)    Suffix AHLetter × AHLetter;
    (* WB6 *)    Suffix AHLetter × Cat (Alt MidLetter MidNumLetQ) AHLetter;
    (* WB7 *)    Suffix (Cat AHLetter (Alt MidLetter MidNumLetQ)) × AHLetter;
    (* WB7a *)   Suffix HebrewLetter × SingleQuote;
    (* WB7b *)   Suffix HebrewLetter × Cat DoubleQuote HebrewLetter;
    (* WB7c *)   Suffix (Cat HebrewLetter DoubleQuote) × HebrewLetter;
    (* WB8 *)    Suffix Numeric × Numeric;
    (* WB9 *)    Suffix AHLetter × Numeric;
    (* WB10 *)   Suffix Numeric × AHLetter;
    (* WB11 *)   Suffix (Cat Numeric (Alt MidNum MidNumLetQ)) × Numeric;
    (* WB12 *)   Suffix Numeric × Cat (Alt MidNum MidNumLetQ) Numeric;
    (* WB13 *)   Suffix Katakana × Katakana;
    (* WB13a *)  Suffix (Alt AHLetter (Alt Numeric (Alt Katakana ExtendNumLet))) × ExtendNumLet;
    (* WB13b *)  Suffix ExtendNumLet × Alt AHLetter (Alt Numeric Katakana);
    (* WB15 *)   Sot (Cat (Star (Cat RI RI)) RI) × RI;
    (* WB16 *)   Suffix (Cat NotRI (Cat (Star (Cat RI RI)) RI)) × RI
  ] ++ more_rules ++ [
    (* WB999 *)  Suffix Any ÷ Any
  ].

  Definition word_like (b a : text) (o : op) : Prop :=
    says b a word_rules_1 (Some o)
    \/ says b a word_rules_1 None
       /\ says (reduce ignored line_end None b) (reduce ignored line_end (last_char b) a) word_rules_2 (Some o).
End Rules.

(** Words: the rules as published. *)
Definition word_decides : text -> text -> op -> Prop := word_like (wc WB_ALetter) [].

(** Phrases: (a) pictographs count as letters; (b) letters, numbers and spaces do not break from each other. *)
Definition phrase_letter (c : N) : bool := wc WB_ALetter c || ExtPict c.
Definition Phrasal := Alt (AHLetter phrase_letter) (Alt Numeric WSegSpace).
Definition phrase_decides : text -> text -> op -> Prop := word_like phrase_letter [Suffix Phrasal × Phrasal].
