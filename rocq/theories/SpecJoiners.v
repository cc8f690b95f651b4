(** Specification vocabulary for words.Joiners and words.Iterator.Split. *)
From Verif Require Import Base Engine SpecIter SpecApi ApiInst.
From Verif Require Words.

(** No joiners: a nil pointer, or both lists empty (or nil). *)
Definition no_joiners (j : option Words.Joiners) : Prop := j = None \/ j = Some {| Words.Middle := []; Words.Leading := [] |}.

(** All settings made in a history of calls are "no joiners". *)
Fixpoint without_joiners (cs : list (call (option Words.Joiners))) : Prop :=
  match cs with
  | [] => True
  | CConfig j :: rest => no_joiners j /\ without_joiners rest
  | _ :: rest => without_joiners rest
  end.

(** Space is not among the middle joiners. *)
Definition no_middle_space (j : option Words.Joiners) : Prop := match j with Some jj => ~ In 0x20%N (Words.Middle jj) | None => True end.

(** A split function that always finds a token: some non-empty part of what it is given, from the front. *)
Definition well_behaved (f : splitfun) : Prop := forall d, d <> [] -> exists n, 0 < n <= length d
  /\ f d true = Ok {| so_advance := Z.of_nat n; so_token := Some (firstn n d); so_err := None |}.

(** The tokens of [d] are what [f] returns on the remaining data, again and again. *)
Inductive tokens_by (f : splitfun) : bytes -> list bytes -> Prop :=
| by_nil : tokens_by f [] []
| by_cons : forall d n l, f d true = Ok {| so_advance := Z.of_nat n; so_token := Some (firstn n d); so_err := None |} ->
    0 < n <= length d -> tokens_by f (skipn n d) l -> tokens_by f d (firstn n d :: l).

Definition ascii_alphanumeric (b : N) : Prop := (0x61 <= b <= 0x7A \/ 0x41 <= b <= 0x5A \/ 0x30 <= b <= 0x39)%N.

(** [d] starts with exactly [k] > 0 ASCII letters and digits, and then there is a space or the end. *)
Definition plain_word (d : bytes) (k : nat) : Prop :=
  0 < k <= length d /\ Forall ascii_alphanumeric (firstn k d) /\ match skipn k d with [] => True | b :: _ => b = 0x20%N end.
