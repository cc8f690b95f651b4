(** Specification vocabulary of C63: reading data of any length through a buffer of limited size. *)
From Verif Require Import Base SpecIter SpecApi Scanner SpecReader.

(** Any [k] consecutive tokens, and three bytes more, are shorter than the scanner's limit.  (2^62 is where the buffer cannot be doubled any more, whatever the limit.) *)
Definition tokens_fit (k : nat) (max : N) (l : list bytes) : Prop :=
  forall before some after, l = before ++ some ++ after -> length some <= k -> (N.of_nat (length (concat some)) + 3 < N.min max (2 ^ 62))%N.

(** However long the data [d] which the reader delivers: if any [k] consecutive tokens of it fit, the client's loop over the scanner returns exactly the tokens of [d], and Err() is nil, or the reader's own error. *)
Definition reads_long (k : nat) (iterate : nat -> bytes -> res (list bytes)) (f : splitfun) : Prop :=
  forall rd r d e s fuel l, delivers rd r d e -> lively rd 100 r -> fresh_scanner f s -> length d + 2 < fuel ->
  iterate fuel d = Ok l -> tokens_fit k (sc_max s) l ->
  scan_all rd fuel s r = Ok (l, match e with EOF => None | _ => Some (SRead e) end).
