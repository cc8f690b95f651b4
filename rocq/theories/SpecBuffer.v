(** Specification vocabulary of C64: how large the buffer of a scanner becomes. *)
From Verif Require Import Base SpecIter SpecApi Scanner SpecReader.

(** Any number of calls of Scan, whatever they return. *)
Inductive scanning (rd : reader) : scanner -> rd_St rd -> scanner -> rd_St rd -> Prop :=
| scanning_none : forall s r, scanning rd s r s r
| scanning_more : forall s r fuel b s1 r1 s2 r2, Scan rd fuel s r = Ok (b, s1, r1) -> scanning rd s1 r1 s2 r2 -> scanning rd s r s2 r2.

Definition size (s : scanner) : N := N.of_nat (length (sc_buf s)).
(** No [k] consecutive tokens are longer than [w] bytes. *)
Definition spans_at_most (k : nat) (w : N) (l : list bytes) : Prop :=
  forall before some after, l = before ++ some ++ after -> length some <= k -> (N.of_nat (length (concat some)) <= w)%N.

(** What the client gave it, or else 4096 bytes. *)
Definition first_size (s : scanner) : N := if (size s =? 0)%N then 4096%N else size s.
(** However long the data, the buffer is never larger than at first, or than twice [k] consecutive tokens and three bytes. *)
Definition reads_in_place (k : nat) (iterate : nat -> bytes -> res (list bytes)) (f : splitfun) : Prop :=
  forall rd r d e s s' r' l w fuel, delivers rd r d e -> fresh_scanner f s -> length d < fuel -> iterate fuel d = Ok l -> spans_at_most k w l ->
  scanning rd s r s' r' -> (size s' <= N.max (first_size s) (2 * (w + 3)))%N.
