(** Specification: how bytes that are not well-formed UTF-8 are divided into characters. *)
From Verif Require Import Base SpecUtf8.
Local Open Scope N_scope.

Definition continuation (c : N) : bool := (0x80 <=? c) && (c <=? 0xBF).
(** The continuation bytes in front, [n] at most. *)
Fixpoint continuations (n : nat) (d : bytes) : bytes :=
  match n, d with
  | S n, c :: d => if continuation c then c :: continuations n d else []
  | _, _ => []
  end.

(** A unit is a lead byte with the continuation bytes it announces, as far as they are there; every other byte is a unit by itself.  There is no first
    unit when the lead byte announces more bytes than are left, whatever they are. *)
Definition first_unit (d : bytes) : option bytes :=
  match d with
  | [] => None
  | lead :: r => if (announced lead <=? length d)%nat then Some (lead :: continuations (announced lead - 1) r) else None
  end.

(** [units d us tail]: [d] consists of the units [us] and then [tail], where there is no further unit. *)
Inductive units : bytes -> list bytes -> bytes -> Prop :=
| units_end : forall tail, first_unit tail = None -> units tail [] tail
| units_more : forall u d us tail, first_unit (u ++ d) = Some u -> units d us tail -> units (u ++ d) (u :: us) tail.

(** The character a unit stands for: itself when it is well-formed, otherwise U+FFFD REPLACEMENT CHARACTER. *)
Definition value (u : bytes) : N :=
  match u with
  | [a] => a
  | [a; b] => (a - 0xC0) * 0x40 + (b - 0x80)
  | [a; b; c] => (a - 0xE0) * 0x1000 + (b - 0x80) * 0x40 + (c - 0x80)
  | [a; b; c; e] => (a - 0xF0) * 0x40000 + (b - 0x80) * 0x1000 + (c - 0x80) * 0x40 + (e - 0x80)
  | _ => 0
  end.
Definition scalarb (c : N) : bool := (c <? 0xD800) || ((0xE000 <=? c) && (c <? 0x110000)).
Definition character (u : bytes) : N :=
  if scalarb (value u) && (if list_eq_dec N.eq_dec (utf8 (value u)) u then true else false) then value u else 0xFFFD.

(** The tail goes with the last token; if there is none it is a token by itself. *)
Fixpoint with_tail (l : list bytes) (tail : bytes) : list bytes :=
  match l with
  | [] => if is_nil tail then [] else [tail]
  | [t] => [t ++ tail]
  | t :: l => t :: with_tail l tail
  end.
