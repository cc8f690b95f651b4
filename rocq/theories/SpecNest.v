(** Specification vocabulary: boundaries of a token list, and pieces made of whole smaller pieces. *)
From Verif Require Import Base.

(** The token list [l] has a boundary at byte offset [n]. *)
Definition boundary (l : list bytes) (n : nat) : Prop := exists l1 l2, l = l1 ++ l2 /\ length (concat l1) = n.

(** Every element of [coarse] is the concatenation of consecutive elements of [fine], and nothing is left over. *)
Definition made_of (coarse fine : list bytes) : Prop :=
  exists groups : list (list bytes), concat groups = fine /\ map (@concat N) groups = coarse.
