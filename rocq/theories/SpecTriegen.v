(** Specification: what a lookup table generator must produce. *)
From Verif Require Import Base SpecUtf8.
Local Open Scope N_scope.

(** The value a sequence of assignments gives to a code point: the last one that is not zero, and zero if there is none. *)
Fixpoint assigned (l : list (N * N)) (cp : N) : N :=
  match l with
  | [] => 0
  | (r, v) :: rest => let later := assigned rest cp in if negb (later =? 0) then later else if r =? cp then v else 0
  end.

(** Zero may be assigned to anything; other values only to scalar values. *)
Definition assignable (l : list (N * N)) : Prop := Forall (fun e => snd e <> 0 -> scalar (fst e)) l.

(** A lookup function is right for an assignment: on every non-empty input it returns, on a whole scalar value at the front its value and
    width, and a value other than zero only for a whole scalar value at the front. *)
Definition looks_up {R : Type} (ok : N * nat -> R) (lookup : bytes -> R) (l : list (N * N)) : Prop :=
  forall d, d <> [] -> exists v w, lookup d = ok (v, w)
    /\ (forall cp rest, scalar cp -> d = utf8 cp ++ rest -> v = assigned l cp /\ w = length (utf8 cp))
    /\ (v <> 0 -> exists cp rest, scalar cp /\ d = utf8 cp ++ rest).
