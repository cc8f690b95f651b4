(** Specification: characters that the rules do not tell apart, and maps of bytes that keep them alike. *)
From Verif Require Import Base SpecUcd.
Local Open Scope N_scope.

Definition same_grapheme (c c' : N) : Prop := GCB c = GCB c' /\ InCB c = InCB c' /\ ExtPict c = ExtPict c'.
Definition same_word (c c' : N) : Prop := WB c = WB c' /\ ExtPict c = ExtPict c'.
Definition same_sentence (c c' : N) : Prop := SB c = SB c'.

Definition lower_byte (c : N) : bool := (97 <=? c) && (c <=? 122).
Definition upper_byte (c : N) : bool := (65 <=? c) && (c <=? 90).
Definition digit_byte (c : N) : bool := (48 <=? c) && (c <=? 57).

(** A letter stays a letter, a digit a digit, and every other byte stays what it is: changing the case, a substitution cipher, masking all digits. *)
Definition renames (f : N -> N) : Prop := forall c,
  if lower_byte c || upper_byte c then lower_byte (f c) || upper_byte (f c) = true
  else if digit_byte c then digit_byte (f c) = true else f c = c.
(** The same, keeping the case. *)
Definition renames_in_case (f : N -> N) : Prop := forall c,
  if lower_byte c then lower_byte (f c) = true else if upper_byte c then upper_byte (f c) = true
  else if digit_byte c then digit_byte (f c) = true else f c = c.

(** ASCII only *)
Definition to_lower (c : N) : N := if upper_byte c then c + 32 else c.
