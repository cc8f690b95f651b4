(** The scanner of Scanner.v once more, counting.  What is counted is a matter of prices: [pw] for each round of Scan's loop and for each step of the SplitFunc
    (the steps of CountGraphemes.v, CountWords.v, CountPhrases.v), [pc] for each byte that is moved within the buffer or copied to a larger one, [pr] for each call of Read.
    Apart from the counting each definition is the one of Scanner.v with the same name, which cites the Go lines; WorkFacts.v proves that the results are the same. *)
From Verif Require Import Base Cost SpecApi Scanner.
Local Open Scope N_scope.

Section Count.
  Variables pw pc pr : nat.
  (** the SplitFunc, counting *)
  Variable ts : bytes -> bool -> T split_out.
  Definition scaled {A} (p : nat) (m : T A) : T A := ((p * fst m)%nat, snd m).

  (** bufio/scan.go, Scan: the copy within the buffer *)
  Definition t_shift (s : scanner) : T scanner :=
    if (0 <? sc_start s)%nat && (Nat.eqb (sc_end s) (length (sc_buf s)) || (length (sc_buf s) / 2 <? sc_start s)%nat)
    then steps (pc * (sc_end s - sc_start s)) (shift s)
    else free (shift s).
  (** bufio/scan.go, Scan: the copy to a new buffer *)
  Definition t_grow (s : scanner) : T (option scanner) :=
    if Nat.eqb (sc_end s) (length (sc_buf s)) then
      match grow s with
      | Ok None => free (Ok None)
      | g => steps (pc * (sc_end s - sc_start s)) g
      end
    else free (grow s).

  Section Run.
    Variable rd : reader.
    (** bufio/scan.go, Scan: how often Read is called *)
    Fixpoint reads_of (tries : nat) (s : scanner) (r : rd_St rd) : nat :=
      let room := (length (sc_buf s) - sc_end s)%nat in
      let '(bs, err, r') := rd_read rd r room in
      if (room <? length bs)%nat then 1%nat
      else
        let s := with_buf s (put (sc_buf s) (sc_end s) bs) (sc_start s) (sc_end s + length bs) in
        match err with
        | Some e => 1%nat
        | None =>
          if (0 <? length bs)%nat then 1%nat
          else match tries with
               | O => 1%nat
               | S tries' => S (reads_of tries' s r')
               end
        end.
    Definition t_fill (tries : nat) (s : scanner) (r : rd_St rd) : T (scanner * rd_St rd) := steps (pr * reads_of tries s r) (Ok (fill rd tries s r)).

    Fixpoint t_scan_loop (fuel : nat) (s : scanner) (r : rd_St rd) : T (bool * scanner * rd_St rd) :=
      match fuel with
      | O => free OutOfFuel
      | S fuel' =>
        let more (s : scanner) : T (bool * scanner * rd_St rd) :=
          match sc_err s with
          | Some _ => free (Ok (false, with_buf s (sc_buf s) 0 0, r))
          | None =>
            s <~ t_shift s ;;
            g <~ t_grow s ;;
            match g with
            | None => free (Ok (false, set_err s ErrTooLong, r))
            | Some s => ' (s, r') <~ t_fill maxConsecutiveEmptyReads s r ;; t_scan_loop fuel' s r'
            end
          end in
        let has_err := match sc_err s with Some _ => true | None => false end in
        _ <~ steps pw (Ok tt) ;;
        if (sc_start s <? sc_end s)%nat || has_err then
          d <~ free (slice (sc_buf s) (sc_start s) (sc_end s)) ;;
          o <~ scaled pw (ts d has_err) ;;
          match so_err o with
          | Some e => free (Ok (false, set_err s (SSplit e), r))
          | None =>
            if (so_advance o <? 0)%Z then free (Ok (false, set_err s ErrNegativeAdvance, r))
            else
              let n := Z.to_nat (so_advance o) in
              if (sc_end s - sc_start s <? n)%nat then free (Ok (false, set_err s ErrAdvanceTooFar, r))
              else
                let s := with_buf s (sc_buf s) (sc_start s + n) (sc_end s) in
                match so_token o with
                | Some tok =>
                  if negb has_err || (0 <? n)%nat then free (Ok (true, with_token s (Some tok) 0, r))
                  else if (maxConsecutiveEmptyReads <? S (sc_empties s))%nat then free Panic
                  else free (Ok (true, with_token s (Some tok) (S (sc_empties s)), r))
                | None => more (with_token s None (sc_empties s))
                end
          end
        else more s
      end.
    Definition t_Scan (fuel : nat) (s : scanner) (r : rd_St rd) : T (bool * scanner * rd_St rd) := t_scan_loop fuel (with_called s) r.

    (** The client's loop. *)
    Fixpoint t_scan_all (fuel : nat) (s : scanner) (r : rd_St rd) : T (list bytes * option serr) :=
      match fuel with
      | O => free OutOfFuel
      | S fuel' =>
        ' (b, s', r') <~ t_Scan fuel s r ;;
        if b : bool then
          ' (l, e) <~ t_scan_all fuel' s' r' ;; free (Ok (Bytes s' :: l, e))
        else free (Ok ([], Err s'))
      end.
  End Run.
End Count.
