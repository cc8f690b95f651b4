(** Specification: what the generated tables must say about a family of properties. *)
From Verif Require Import Base SpecUtf8.
Local Open Scope N_scope.

(** Alphabetical (byte-wise) order of names. *)
Inductive before : bytes -> bytes -> Prop :=
  | before_nil : forall y b, before [] (y :: b)
  | before_lt : forall x y a b, x < y -> before (x :: a) (y :: b)
  | before_eq : forall x a b, before a b -> before (x :: a) (x :: b).

(** The number of names of a family that come before a name: its bit. *)
Definition rank (names : list bytes) (p : bytes) (i : nat) : Prop :=
  exists l, NoDup l /\ length l = i /\ forall q, In q l <-> In q names /\ before q p.

(** A value carries exactly the bits of the properties that contain the code point. *)
Definition carries (props : list (bytes * list N)) (cp v : N) : Prop :=
  (forall p rs i, In (p, rs) props -> rank (map fst props) p i -> N.testbit v (N.of_nat i) = true <-> In cp rs) /\ v < 2 ^ N.of_nat (length props).

(** The input the generator expects: distinct names, scalar values, at most 64 properties. *)
Definition family (props : list (bytes * list N)) : Prop :=
  NoDup (map fst props) /\ (length props <= 64)%nat /\ forall p rs, In (p, rs) props -> Forall scalar rs.
