(** Specification: plain text, and where it is cut, two neighbouring characters at a time. *)
From Verif Require Import Base SpecUcd SpecRules.
From Verif Require SpecWords SpecSentences.

(** The text cut between neighbours that do not stay together. *)
Fixpoint cut_where (stays : N -> N -> bool) (cps : text) : list text :=
  match cps with
  | [] => []
  | x :: r =>
    match cut_where stays r with
    | (y :: s) :: ss => if stays x y then (x :: y :: s) :: ss else [x] :: (y :: s) :: ss
    | _ => [[x]]
    end
  end.

(** ** Words *)
Section Words.
  Import SpecWords.
  (** No marks and format characters, no apostrophes, quotes, full stops, commas, colons and the like between letters or numbers, no flags. *)
  Definition plain_word (c : N) : bool :=
    negb (ignored c || wc WB_MidLetter c || wc WB_MidNum c || wc WB_MidNumLet c || wc WB_Single_Quote c || wc WB_Double_Quote c || wc WB_Regional_Indicator c).
  Definition letter (c : N) : bool := wc WB_ALetter c || wc WB_Hebrew_Letter c.
  Definition number (c : N) : bool := wc WB_Numeric c.
  Definition katakana (c : N) : bool := wc WB_Katakana c.
  Definition underscore (c : N) : bool := wc WB_ExtendNumLet c.
  Definition space (c : N) : bool := wc WB_WSegSpace c.
  Definition crlf (x y : N) : bool := wc WB_CR x && wc WB_LF y.

  (** Letters and numbers stay together, so do Katakana; underscores with all of them; spaces with spaces; CR with LF.  Everything else is a word of its own. *)
  Definition stays_word (x y : N) : bool :=
    crlf x y || (space x && space y)
    || ((letter x || number x) && (letter y || number y)) || (katakana x && katakana y)
    || ((letter x || number x || katakana x || underscore x) && underscore y) || (underscore x && (letter y || number y || katakana y)).

  (** Phrases: pictographs are letters, and spaces stay with letters and numbers. *)
  Definition letter_p (c : N) : bool := letter c || ExtPict c.
  Definition stays_phrase (x y : N) : bool :=
    crlf x y || ((letter_p x || number x || space x) && (letter_p y || number y || space y)) || (katakana x && katakana y)
    || ((letter_p x || number x || katakana x || underscore x) && underscore y) || (underscore x && (letter_p y || number y || katakana y)).
End Words.

(** ** Sentences *)
Section Sentences.
  Import SpecSentences.
  (** No full stops, question marks, exclamation marks and the like. *)
  Definition no_term (c : N) : bool := negb (sc SB_ATerm c || sc SB_STerm c).
  (** A line keeps together with its end, CR LF counting as one. *)
  Definition stays_line (x y : N) : bool := negb (para_sep x) || (sc SB_CR x && sc SB_LF y).
End Sentences.

(** ** The same for ASCII, without Unicode properties *)
Local Open Scope N_scope.
Definition between (a c b : N) : bool := (a <=? c) && (c <=? b).
(** A-Z, a-z, 0-9, _ *)
Definition word_byte (c : N) : bool := between 65 c 90 || between 97 c 122 || between 48 c 57 || (c =? 95).
(** quotation mark, apostrophe, comma, full stop, colon, semicolon *)
Definition joint_byte (c : N) : bool := existsb (N.eqb c) [34; 39; 44; 46; 58; 59].
Definition ascii_word (x y : N) : bool := ((x =? 13) && (y =? 10)) || ((x =? 32) && (y =? 32)) || (word_byte x && word_byte y).
(** without the underscore, which does not stay with spaces *)
Definition ascii_phrase (x y : N) : bool :=
  let p c := (word_byte c && negb (c =? 95)) || (c =? 32) in ((x =? 13) && (y =? 10)) || (p x && p y) || (word_byte x && word_byte y).
(** full stop, exclamation mark, question mark *)
Definition term_byte (c : N) : bool := existsb (N.eqb c) [33; 46; 63].
Definition ascii_line (x y : N) : bool := negb ((x =? 10) || (x =? 13)) || ((x =? 13) && (y =? 10)).
