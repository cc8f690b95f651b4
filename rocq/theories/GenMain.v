(** Model of the last part of (prop).generateTrie, internal/gen/main.go:200-223: from the runes of each property to the trie.
    A Go map is an association list with distinct keys; ranging over it visits a permutation of it, so the two loops over maps
    are given the order they visit as an argument.  strings.Split etc. on the Unicode data files are in GenParse.v. *)
From Verif Require Import Base Triegen.
From Coq Require Import Permutation.
Local Open Scope N_scope.

(** a < b for strings in Go. *)
Fixpoint ltb_bytes (a b : bytes) : bool :=
  match a, b with
  | _, [] => false
  | [], _ :: _ => true
  | x :: a', y :: b' => (x <? y) || ((x =? y) && ltb_bytes a' b')
  end.

(** sort.Strings: some sorted permutation; insertion sort gives it. *)
Fixpoint insert_sorted (s : bytes) (l : list bytes) : list bytes :=
  match l with
  | [] => [s]
  | x :: r => if ltb_bytes x s then x :: insert_sorted s r else s :: l
  end.
Definition sortStrings (l : list bytes) : list bytes := fold_right insert_sorted [] l.

(** main.go:207-210: iotasByProperty, a uint64 shift. *)
Definition bit64 (i : nat) : N := if (i <? 64)%nat then 2 ^ N.of_nat i else 0.
Fixpoint number (i : nat) (l : list bytes) : list (bytes * N) := match l with [] => [] | p :: r => (p, bit64 i) :: number (S i) r end.
Definition iotasByProperty (runesByProperty : list (bytes * list N)) : list (bytes * N) := number 0 (sortStrings (map fst runesByProperty)).

(** m[k] with the zero value for a missing key. *)
Definition bytes_eqb (a b : bytes) : bool := if list_eq_dec N.eq_dec a b then true else false.
Fixpoint mget (k : bytes) (m : list (bytes * N)) : N := match m with [] => 0 | (k', v) :: r => if bytes_eqb k' k then v else mget k r end.
Fixpoint rget (k : N) (m : list (N * N)) : N := match m with [] => 0 | (k', v) :: r => if k' =? k then v else rget k r end.
(** m[k] = v. *)
Fixpoint rset (k v : N) (m : list (N * N)) : list (N * N) :=
  match m with [] => [(k, v)] | (k', v') :: r => if k' =? k then (k, v) :: r else (k', v') :: rset k v r end.

(** main.go:212-217: iotasByRune, visiting the properties in the order [visit]. *)
Definition iotasByRune (iotas : list (bytes * N)) (visit : list (bytes * list N)) : list (N * N) :=
  fold_left (fun m e => fold_left (fun m r => rset r (N.lor (rget r m) (mget (fst e) iotas)) m) (snd e) m) visit [].

(** main.go:219-223: the trie, visiting the runes in the order [visit]. *)
Definition trie_of (visit : list (N * N)) : res node := inserts NewTrie visit.

(** main.go:200-223, for the orders [visit1] of runesByProperty and [visit2] of iotasByRune. *)
Inductive generates (runesByProperty : list (bytes * list N)) : res node -> Prop :=
  | generates_intro : forall visit1 visit2,
      Permutation runesByProperty visit1 ->
      Permutation (iotasByRune (iotasByProperty runesByProperty) visit1) visit2 ->
      generates runesByProperty (trie_of visit2).

(** main.go:414-425 (writeTrie): the width of the type property. *)
Definition property_width (n : nat) : N := if (n <? 8)%nat then 8 else if (n <? 16)%nat then 16 else if (n <? 32)%nat then 32 else 64.
