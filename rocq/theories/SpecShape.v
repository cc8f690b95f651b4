(** Specification: what a word looks like (a grammar of the tokens of package words). *)
From Verif Require Import Base SpecUcd SpecRules SpecWords SpecSpace.

(** The characters of a word: letters, digits, katakana, and connectors such as the underscore. *)
Definition hebrew (c : N) : Prop := WB c = WB_Hebrew_Letter.
Definition letter (c : N) : Prop := WB c = WB_ALetter \/ hebrew c.
Definition digit (c : N) : Prop := WB c = WB_Numeric.
Definition katakana (c : N) : Prop := WB c = WB_Katakana.
Definition connector (c : N) : Prop := WB c = WB_ExtendNumLet.
Definition word_char (c : N) : Prop := letter c \/ digit c \/ katakana c \/ connector c.
(** Katakana do not go with letters and digits. *)
Definition go_together (x y : N) : Prop := ~ (katakana x /\ (letter y \/ digit y)) /\ ~ ((letter x \/ digit x) /\ katakana y).
(** Punctuation inside a word: the apostrophe and the full stop between letters or between digits, the colon between letters, the comma between digits,
    the quotation mark between Hebrew letters. *)
Definition single_quote (c : N) : Prop := WB c = WB_Single_Quote.
Definition between (x m z : N) : Prop :=
  letter x /\ (WB m = WB_MidLetter \/ WB m = WB_MidNumLet \/ single_quote m) /\ letter z
  \/ digit x /\ (WB m = WB_MidNum \/ WB m = WB_MidNumLet \/ single_quote m) /\ digit z
  \/ hebrew x /\ WB m = WB_Double_Quote /\ hebrew z.

(** [chain x r]: the word character [x] and then [r], a sequence of word characters that go together, some with one punctuation mark between them;
    a Hebrew letter at the end may have an apostrophe. *)
Inductive chain : N -> text -> Prop :=
| Chain_end : forall x, chain x []
| Chain_next : forall x y r, word_char y -> go_together x y -> chain y r -> chain x (y :: r)
| Chain_inside : forall x m z r, between x m z -> chain z r -> chain x (m :: z :: r)
| Chain_apostrophe : forall x m, hebrew x -> single_quote m -> chain x [m].

(** The text without combining marks, format characters and joiners. *)
Definition bases (t : text) : text := filter (fun c => negb (ignored c)) t.
Definition line_char (c : N) : Prop := WB c = WB_CR \/ WB c = WB_LF \/ WB c = WB_Newline.

Inductive word_shape : text -> Prop :=
(* CR LF, and any other line ending *)
| Shape_crlf : forall x y, WB x = WB_CR -> WB y = WB_LF -> word_shape [x; y]
| Shape_line : forall c, line_char c -> word_shape [c]
(* spaces, then marks *)
| Shape_spaces : forall sp ms, sp <> [] -> Forall is_space sp -> Forall word_mark ms -> word_shape (sp ++ ms)
(* a flag: two regional indicators, with marks *)
| Shape_flag : forall x y t, WB x = WB_Regional_Indicator -> WB y = WB_Regional_Indicator -> bases t = [y] -> word_shape (x :: t)
(* a word, with marks *)
| Shape_word : forall x t, word_char x -> chain x (bases t) -> word_shape (x :: t)
(* any other character, with marks *)
| Shape_other : forall c t, ~ line_char c -> Forall word_mark t -> word_shape (c :: t).

(** No zero width joiner right before a pictograph. *)
Definition no_joined_pictograph (t : text) : Prop := forall b x y a, t = b ++ x :: y :: a -> ~ (WB x = WB_ZWJ /\ ExtPict y = true).
