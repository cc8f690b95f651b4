(** Specification: cutting by longest match. *)
From Verif Require Import Base SpecUtf8 SpecApi SpecRules.

(** [segs]: from the front, always the longest piece that is a word. *)
Inductive munch (word : text -> Prop) : text -> list text -> Prop :=
| Munched : munch word [] []
| Munch : forall s r segs, s <> [] -> word s -> (forall s' r', s ++ r = s' ++ r' -> length s < length s' -> ~ word s') -> munch word r segs ->
    munch word (s ++ r) (s :: segs).
(** By itself, [s] is one token. *)
Definition alone (A : api) (mk : bytes -> It A) (s : text) : Prop := tokens A (S (length (encode s))) (mk (encode s)) = Ok [encode s].
