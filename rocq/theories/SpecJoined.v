(** Specification: the word rules with middle joiners.  A middle joiner joins two letters, or two digits, as a MidNumLet
    character does in WB6, WB7, WB11 and WB12, in addition to whatever it is otherwise. *)
From Verif Require Import Base SpecUcd SpecRules SpecWords.
Local Open Scope rule_scope.

Definition Letter := AHLetter (wc WB_ALetter).
Definition middle_rules (middle : N -> bool) : list rule := [
  (* as WB6 *)   Suffix Letter × Cat (Cls middle) Letter;
  (* as WB7 *)   Suffix (Cat Letter (Cls middle)) × Letter;
  (* as WB11 *)  Suffix (Cat Numeric (Cls middle)) × Numeric;
  (* as WB12 *)  Suffix Numeric × Cat (Cls middle) Numeric
].
Definition joined_decides (middle : N -> bool) : text -> text -> op -> Prop := word_like (wc WB_ALetter) (middle_rules middle).

(** Letters and digits, as the word rules see them. *)
Definition letter (c : N) : Prop := wc WB_ALetter c = true \/ wc WB_Hebrew_Letter c = true.
Definition digit (c : N) : Prop := wc WB_Numeric c = true.
(** Membership in a list of joiners. *)
Definition listed (l : list N) (r : N) : bool := existsb (N.eqb r) l.
