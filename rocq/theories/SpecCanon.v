(** Specification: canonical equivalence (The Unicode Standard, section 3.7, D70, and section 3.11), as far as the characters encoded by Unicode 15 go. *)
From Verif Require Import Base SpecHangul SpecDecomp.
Local Open Scope N_scope.

(** Canonical combining class: 0 but for the marks listed. *)
Definition ccc (c : N) : N :=
  match find (fun e : N * N * N => let '(lo, hi, _) := e in (lo <=? c) && (c <=? hi)) combining_classes with Some (_, _, k) => k | None => 0 end.

(** A character may be replaced by its decomposition mapping, a Hangul syllable by its jamo, and two marks next to each other whose classes are neither 0 nor in order may change places;
    and all this the other way round, at any place, any number of times.  The mappings of the characters in [but] are not used: [canon []] is canonical equivalence. *)
Inductive canon (but : list N) : list N -> list N -> Prop :=
| canon_refl : forall t, canon but t t
| canon_sym : forall t u, canon but t u -> canon but u t
| canon_trans : forall t u v, canon but t u -> canon but u v -> canon but t v
| canon_mapping : forall u c d v, In (c, d) decompositions -> ~ In c but -> canon but (u ++ [c] ++ v) (u ++ d ++ v)
| canon_hangul : forall u c v, syllable c = true -> canon but (u ++ [c] ++ v) (u ++ jamo c ++ v)
| canon_order : forall u a b v, 0 < ccc b < ccc a -> canon but (u ++ [a; b] ++ v) (u ++ [b; a] ++ v).

(** U+21AE, a left right arrow with a stroke, is an arrow like others; its decomposition starts with U+2194, an arrow that counts as a pictograph. *)
Definition stroked_arrow : N := 0x21AE.
