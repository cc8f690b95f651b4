(** Specification: when the hashes of the nodes of a trie tell them apart. *)
From Verif Require Import Base Triegen.
Local Open Scope N_scope.

Section Hash.
  Variable H : list N -> N.

  (** The hash of a node: of the hashes of its children (0 for none) followed by its values; 0 for a node that has neither. *)
  Fixpoint nhash (n : node) {struct n} : N :=
    match n with Node ch vs =>
      if is_nil ch && is_nil vs then 0
      else H ((fix go l := match l with [] => [] | None :: r => 0 :: go r | Some c :: r => nhash c :: go r end) ch ++ vs)
    end.
  Fixpoint hashes (l : list (option node)) : list N := match l with [] => [] | None :: r => 0 :: hashes r | Some c :: r => nhash c :: hashes r end.
End Hash.

(** [below n m]: n is m or somewhere under it. *)
Inductive below (n : node) : node -> Prop :=
| below_refl : below n n
| below_child : forall ch vs c, In (Some c) ch -> below n c -> below n (Node ch vs).

Definition is_leaf (n : node) : bool := is_nil (children n).

(** No two different nodes of the same kind (leaves, internal nodes) under the root have the same hash, and none has hash zero. *)
Definition distinct (H : list N -> N) (t : node) : Prop := forall c, In (Some c) (children t) ->
  (forall n, below n c -> nhash H n <> 0) /\
  (forall c' n n', In (Some c') (children t) -> below n c -> below n' c' -> is_leaf n = is_leaf n' -> nhash H n = nhash H n' -> n = n').
