(** Specification: the runes of a byte string, as Go's [range] over a string yields them. *)
From Verif Require Import Base SpecUtf8.
Local Open Scope N_scope.

(** From the front: a character if there is one; otherwise one byte that stands for U+FFFD. *)
Inductive runes : bytes -> list N -> Prop :=
| runes_end : runes [] []
| runes_char : forall x rest l, scalar x -> runes rest l -> runes (utf8 x ++ rest) (x :: l)
| runes_bad : forall b rest l, (forall x z, scalar x -> b :: rest <> utf8 x ++ z) -> runes rest l -> runes (b :: rest) (0xFFFD :: l).
