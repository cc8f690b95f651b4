(** Specification: when the hashes of the nodes of several tries tell them apart. *)
From Verif Require Import Base Triegen SpecTrieHash.
Local Open Scope N_scope.

(** n is a node of one of the tries, perhaps a root. *)
Definition among (ts : list node) (n : node) : Prop := exists t, In t ts /\ below n t.

(** No two different nodes of the same kind have the same hash, none has hash zero, and no two different sequences of ASCII values have. *)
Definition distinct_all (H : list N -> N) (ts : list node) : Prop :=
  (forall n, among ts n -> nhash H n <> 0) /\
  (forall n n', among ts n -> among ts n' -> is_leaf n = is_leaf n' -> nhash H n = nhash H n' -> n = n') /\
  (forall t t', In t ts -> In t' ts -> H (values t) = H (values t') -> values t = values t').
