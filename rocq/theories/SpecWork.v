(** Specification vocabulary of C77: how much work it is to read through a Scanner. *)
From Verif Require Import Base Cost SpecIter SpecApi Scanner SpecReader SpecBuffer CountScanner.

(** The whole of [for s.Scan() { tokens = append(tokens, s.Text()) }]: its steps - rounds of Scan's loop, steps of the SplitFunc, bytes moved or copied by the Scanner, calls of Read -
    and the calls of Read alone. *)
Definition scan_steps (ts : bytes -> bool -> T split_out) (rd : reader) (fuel : nat) (s : scanner) (r : rd_St rd) : nat := cost (t_scan_all 1 1 1 ts rd fuel s r).
Definition scan_reads (ts : bytes -> bool -> T split_out) (rd : reader) (fuel : nat) (s : scanner) (r : rd_St rd) : nat := cost (t_scan_all 0 0 1 ts rd fuel s r).

(** The counting loop is the loop. *)
Definition counts (ts : bytes -> bool -> T split_out) (f : splitfun) : Prop :=
  forall pw pc pr rd fuel s r, sc_split s = f -> result (t_scan_all pw pc pr ts rd fuel s r) = scan_all rd fuel s r.
(** Reading [n] bytes takes at most [a] steps for each byte, and [b] for each Read (and once more), where [a] and [b] depend on the longest [k] consecutive tokens:
    whatever the reader delivers at each call, and however it fails. *)
Definition reads_within (a b : nat -> nat) (k : nat) (iterate : nat -> bytes -> res (list bytes)) (ts : bytes -> bool -> T split_out) (f : splitfun) : Prop :=
  forall rd r d e s l w fuel fuel' out, delivers rd r d e -> fresh_scanner f s -> length d < fuel -> iterate fuel d = Ok l -> spans_at_most k (N.of_nat w) l ->
  scan_all rd fuel' s r = Ok out -> scan_steps ts rd fuel' s r <= a w * length d + b w * (scan_reads ts rd fuel' s r + 1).
