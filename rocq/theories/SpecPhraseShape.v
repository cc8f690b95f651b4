(** Specification: what a phrase looks like (a grammar of the tokens of package phrases). *)
From Verif Require Import Base SpecUcd SpecRules SpecWords SpecSpace SpecShape.

(** Pictographs count as letters; every other character has its Word_Break class. *)
Definition pclass (c : N) : wb := if ExtPict c then WB_ALetter else WB c.
Definition p_hebrew (c : N) : Prop := pclass c = WB_Hebrew_Letter.
Definition p_letter (c : N) : Prop := pclass c = WB_ALetter \/ p_hebrew c.
Definition p_digit (c : N) : Prop := pclass c = WB_Numeric.
Definition p_space (c : N) : Prop := pclass c = WB_WSegSpace.
Definition p_katakana (c : N) : Prop := pclass c = WB_Katakana.
Definition p_connector (c : N) : Prop := pclass c = WB_ExtendNumLet.
Definition p_quote (c : N) : Prop := pclass c = WB_Single_Quote.
(** Letters, digits and spaces make up phrases; katakana and connectors can be part of a phrase. *)
Definition phrasal (c : N) : Prop := p_letter c \/ p_digit c \/ p_space c.
Definition phrase_char (c : N) : Prop := phrasal c \/ p_katakana c \/ p_connector c.
(** Katakana go with katakana and connectors; connectors do not go with spaces. *)
Definition p_together (x y : N) : Prop :=
  ~ (p_katakana x /\ phrasal y) /\ ~ (phrasal x /\ p_katakana y) /\ ~ (p_space x /\ p_connector y) /\ ~ (p_connector x /\ p_space y).
(** Punctuation inside a phrase, as inside a word. *)
Definition p_between (x m z : N) : Prop :=
  p_letter x /\ (pclass m = WB_MidLetter \/ pclass m = WB_MidNumLet \/ p_quote m) /\ p_letter z
  \/ p_digit x /\ (pclass m = WB_MidNum \/ pclass m = WB_MidNumLet \/ p_quote m) /\ p_digit z
  \/ p_hebrew x /\ pclass m = WB_Double_Quote /\ p_hebrew z.

Inductive p_chain : N -> text -> Prop :=
| PChain_end : forall x, p_chain x []
| PChain_next : forall x y r, phrase_char y -> p_together x y -> p_chain y r -> p_chain x (y :: r)
| PChain_inside : forall x m z r, p_between x m z -> p_chain z r -> p_chain x (m :: z :: r)
| PChain_apostrophe : forall x m, p_hebrew x -> p_quote m -> p_chain x [m].

Inductive phrase_shape : text -> Prop :=
| PShape_crlf : forall x y, WB x = WB_CR -> WB y = WB_LF -> phrase_shape [x; y]
| PShape_line : forall c, line_char c -> phrase_shape [c]
| PShape_flag : forall x y t, WB x = WB_Regional_Indicator -> WB y = WB_Regional_Indicator -> bases t = [y] -> phrase_shape (x :: t)
| PShape_phrase : forall x t, phrase_char x -> p_chain x (bases t) -> phrase_shape (x :: t)
| PShape_other : forall c t, ~ line_char c -> Forall word_mark t -> phrase_shape (c :: t).

(** A zero width joiner right before a pictograph belongs to a letter, digit, space, connector or pictograph, as in every emoji sequence. *)
Definition joined_well (t : text) : Prop := forall b x y a, t = b ++ x :: y :: a -> WB x = WB_ZWJ -> ExtPict y = true ->
  exists b' h ms, b ++ [x] = b' ++ h :: ms /\ Forall word_mark ms /\ (phrasal h \/ p_connector h).
