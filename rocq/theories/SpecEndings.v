(** Specification: the ways to end a line (The Unicode Standard, section 5.8, Newline Guidelines): CR LF, CR, LF, NEL (U+0085), line separator (U+2028), paragraph separator (U+2029). *)
From Verif Require Import Base.
Local Open Scope N_scope.

Definition line_ends : list N := [0x0A; 0x0D; 0x85; 0x2028; 0x2029].
Definition ends_line (c : N) : bool := existsb (N.eqb c) line_ends.
(** The same text with LF for each of them. *)
Fixpoint unix (t : list N) : list N :=
  match t with
  | [] => []
  | c :: r => if c =? 0x0D then 0x0A :: match r with d :: r' => if d =? 0x0A then unix r' else unix r | [] => [] end
              else if ends_line c then 0x0A :: unix r else c :: unix r
  end.
