(** Specification: Normalization Form D (The Unicode Standard, section 3.11, D68 and D109; UAX #15), for the characters encoded by Unicode 15. *)
From Verif Require Import Base SpecHangul SpecDecomp SpecCanon.
Local Open Scope N_scope.

Definition mapping (c : N) : option (list N) := option_map snd (find (fun e : N * list N => fst e =? c) decompositions).
(** A character is replaced by its mapping, the characters of the mapping by theirs, and so on; a Hangul syllable by its jamo.  No chain of mappings is longer than [deep]. *)
Fixpoint expand (n : nat) (c : N) : list N :=
  match n with
  | O => [c]
  | S n => match mapping c with Some d => flat_map (expand n) d | None => jamo c end
  end.
Definition deep : nat := 4.
Definition full (c : N) : list N := expand deep c.
(** Then marks are sorted by their class: a mark goes behind those of a lower class that follow it, not past a character of class 0, nor past marks of its own class. *)
Fixpoint put_mark (c : N) (t : list N) : list N :=
  match t with
  | x :: r => if (0 <? ccc x) && (ccc x <? ccc c) then x :: put_mark c r else c :: t
  | [] => [c]
  end.
Definition sort_marks (t : list N) : list N := fold_right put_mark [] t.
Definition nfd (t : list N) : list N := sort_marks (flat_map full t).

(** A text in this form: nothing is left to decompose, and no two neighbours are in the wrong order. *)
Definition plain (c : N) : Prop := mapping c = None /\ syllable c = false.
Definition in_nfd (t : list N) : Prop := Forall plain t /\ forall u a b v, t = u ++ [a; b] ++ v -> ~ (0 < ccc b < ccc a).
