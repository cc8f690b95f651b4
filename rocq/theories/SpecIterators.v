(** Specification vocabulary for internal/iterators.Iterator. *)
From Verif Require Import Base SpecIter Iterators.

(** A split function that always advances within its data and never errs. *)
Definition advances (f : splitfun) : Prop := forall d, d <> [] -> exists n tok, 0 < n <= length d
  /\ f d true = Ok {| so_advance := Z.of_nat n; so_token := tok; so_err := None |}.

(** The tokens the split function cuts; a single remaining byte is a token without asking it. *)
Inductive cut_by (f : splitfun) : bytes -> list bytes -> Prop :=
| cut_end : cut_by f [] []
| cut_byte : forall b, cut_by f [b] [[b]]
| cut_more : forall d n tok l, 2 <= length d -> f d true = Ok {| so_advance := Z.of_nat n; so_token := tok; so_err := None |} ->
    0 < n <= length d -> cut_by f (skipn n d) l -> cut_by f d (firstn n d :: l).

(** What Go's type system guarantees: advances are 64-bit integers. *)
Definition returns_ints (f : splitfun) : Prop := forall d b o, f d b = Ok o -> (- 2 ^ 63 <= so_advance o < 2 ^ 63)%Z.

(** A failed answer for the remaining data [d]: an error, no progress, or more than there is. *)
Definition errs (o : split_out) : Prop := so_err o <> None.
Definition stalls (o : split_out) : Prop := (so_advance o <= 0)%Z.
Definition overruns (d : bytes) (o : split_out) : Prop := (Z.of_nat (length d) < so_advance o)%Z.

(** The client's loop, recording value, start and end (to be used with SpecIter.collect). *)
Definition step (it : iter) : res (bool * iter) := let (it', r) := Next it in b <- r ;; Ok (b, it').
Definition observe (it : iter) : res (bytes * Z * Z) := v <- Value it ;; Ok (v, Start it, End_ it).
Definition span_z (s : bytes * nat * nat) : bytes * Z * Z := let '(v, a, b) := s in (v, Z.of_nat a, Z.of_nat b).
Definition value_of (s : bytes * nat * nat) : bytes := fst (fst s).

