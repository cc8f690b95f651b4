(** The functions of package phrases once more, counting steps: one step for each lookup of a character in the trie, and one for each byte read by the ASCII fast path
    of Next.  Apart from the counting each definition is the one of Phrases.v with the same name, which cites the Go lines; CostPhrases.v proves that the results are the same. *)
From Verif Require Import Base Trie TablePhrases Cost Phrases.
Local Open Scope N_scope.

(** phrases/seek.go:7-43 *)
Fixpoint t_subsequent_loop (fuel : nat) (properties : N) (data : bytes) (atEOF : bool) (i : nat) : T (option nat * bool) :=
  match fuel with
  | O => free OutOfFuel
  | S fuel' =>
    if (i <? length data)%nat then
      d <~ free (slice_from data i) ;;
      ' (v, w) <~ steps 1 (phrases_lookup d) ;;
      if Nat.eqb w 0 then
        if atEOF then free (Ok (None, false)) else free (Ok (None, true))
      else if is v _Ignore then t_subsequent_loop fuel' properties data atEOF (i + w)
      else if is v properties then free (Ok (Some i, false))
      else free (Ok (None, false))
    else
      if atEOF then free (Ok (None, false)) else free (Ok (None, true))
  end.
Definition t_subsequent (properties : N) (data : bytes) (atEOF : bool) : T (option nat * bool) :=
  t_subsequent_loop (S (length data)) properties data atEOF 0.

(** phrases/splitfunc.go:128-140, 155-167, 191-203 *)
Definition t_lookahead (cond : bool) (props : N) (after : bytes) (atEOF : bool) (w ri : nat) (next : T pdecision) : T pdecision :=
  if cond then
    ' (adv, more) <~ t_subsequent props after atEOF ;;
    if more : bool then free (Ok PMore)
    else match adv with
         | Some a => free (Ok (PJoin (w + a) ri))
         | None => next
         end
  else next.

(** phrases/splitfunc.go:82-237 *)
Definition t_p_rules (current last lastEx lastLastEx : N) (ri : nat) (w : nat) (after : bytes) (atEOF : bool)
  : T pdecision :=
  (* both zero: no rule can apply *)
  if N.lor current last =? 0 then free (Ok PBreak)
  (* WB3 *)
  else if is current _LF && is last _CR then free (Ok (PJoin w ri))
  (* WB3a, WB3b *)
  else if is (N.lor last current) (N.lor _Newline (N.lor _CR _LF)) then free (Ok PBreak)
  (* WB3c *)
  else if is current _ExtendedPictographic && is last _ZWJ then free (Ok (PJoin w ri))
  (* WB3d *)
  else if is (N.land current last) _WSegSpace then free (Ok (PJoin w ri))
  (* WB4 *)
  else if is current (N.lor _Extend (N.lor _Format _ZWJ)) then free (Ok (PJoin w ri))
  (* WB5 *)
  else if is current _AHLetter && is lastEx _AHLetter then free (Ok (PJoin w ri))
  else
  (* WB6 *)
  t_lookahead (is current (N.lor _MidLetter _MidNumLetQ) && is lastEx _AHLetter) _AHLetter after atEOF w ri (
  (* WB7 *)
  if is current _AHLetter && is lastEx (N.lor _MidLetter _MidNumLetQ) && is lastLastEx _AHLetter
  then free (Ok (PJoin w ri))
  (* WB7a *)
  else if is current _SingleQuote && is lastEx _HebrewLetter then free (Ok (PJoin w ri))
  else
  (* WB7b *)
  t_lookahead (is current _DoubleQuote && is lastEx _HebrewLetter) _HebrewLetter after atEOF w ri (
  (* WB7c *)
  if is current _HebrewLetter && is lastEx _DoubleQuote && is lastLastEx _HebrewLetter then free (Ok (PJoin w ri))
  (* WB8, WB9, WB10 and spaces *)
  else if is current (N.lor _Numeric (N.lor _AHLetter _WSegSpace))
          && is lastEx (N.lor _Numeric (N.lor _AHLetter _WSegSpace)) then free (Ok (PJoin w ri))
  (* WB11 *)
  else if is current _Numeric && is lastEx (N.lor _MidNum _MidNumLetQ) && is lastLastEx _Numeric
  then free (Ok (PJoin w ri))
  else
  (* WB12 *)
  t_lookahead (is current (N.lor _MidNum _MidNumLetQ) && is lastEx _Numeric) _Numeric after atEOF w ri (
  (* WB13 *)
  if is current _Katakana && is lastEx _Katakana then free (Ok (PJoin w ri))
  (* WB13a *)
  else if is current _ExtendNumLet
          && is lastEx (N.lor _AHLetter (N.lor _Numeric (N.lor _Katakana _ExtendNumLet))) then free (Ok (PJoin w ri))
  (* WB13b *)
  else if is current (N.lor _AHLetter (N.lor _Numeric _Katakana)) && is lastEx _ExtendNumLet then free (Ok (PJoin w ri))
  (* WB15, WB16 *)
  else if is current _RegionalIndicator && is lastEx _RegionalIndicator then
    if Nat.eqb ((ri + 1) mod 2) 1 then free (Ok (PJoin w (ri + 1))) else free (Ok PBreak)
  (* WB999 *)
  else free (Ok PBreak)))).

(** phrases/splitfunc.go:51-238 *)
Fixpoint t_p_loop (fuel : nat) (data : bytes) (atEOF : bool) (s : pstate) : T (option nat) :=
  match fuel with
  | O => free OutOfFuel
  | S fuel' =>
    if Nat.eqb (p_pos s) (length data) then
      if negb atEOF then free (Ok None) else free (Ok (Some (p_pos s)))
    else
      let last := p_current s in
      let lastLastEx := if negb (is last _Ignore) then p_lastEx s else p_lastLastEx s in
      let lastEx := if negb (is last _Ignore) then last else p_lastEx s in
      d <~ free (slice_from data (p_pos s)) ;;
      ' (current, w) <~ steps 1 (phrases_lookup d) ;;
      if Nat.eqb w 0 then
        if atEOF then free (Ok (Some (length data))) else free (Ok None)
      else
        after <~ free (slice_from data (p_pos s + w)) ;;
        dec <~ t_p_rules current last lastEx lastLastEx (p_ri s) w after atEOF ;;
        match dec with
        | PMore => free (Ok None)
        | PBreak => free (Ok (Some (p_pos s)))
        | PJoin adv ri' =>
          t_p_loop fuel' data atEOF
            {| p_pos := p_pos s + adv; p_current := current; p_lastEx := lastEx;
               p_lastLastEx := lastLastEx; p_ri := ri' |}
        end
  end.

(** phrases/splitfunc.go:22-241 *)
Definition t_splitFunc (data : bytes) (atEOF : bool) : T split_out :=
  if is_nil data then free (Ok more) else
  d <~ free (slice_from data 0) ;;
  ' (current, w) <~ steps 1 (phrases_lookup d) ;;
  if Nat.eqb w 0 then
    if negb atEOF then free (Ok more)
    else tok <~ free (slice_to data (length data)) ;; free (Ok (done (length data) tok))
  else
    r <~ t_p_loop (S (length data)) data atEOF
           {| p_pos := w; p_current := current; p_lastEx := 0; p_lastLastEx := 0; p_ri := 0 |} ;;
    match r with
    | None => free (Ok more)
    | Some pos => tok <~ free (slice_to data pos) ;; free (Ok (done pos tok))
    end.

(** phrases/iterator.go:63-76 *)
Definition t_next_split (it : iter) : T (bool * iter) :=
  remaining <~ free (slice_from (it_data it) (it_pos it)) ;;
  o <~ t_splitFunc remaining true ;;
  match so_err o with
  | Some _ => free Panic
  | None =>
    if (so_advance o <=? 0)%Z then free Panic else
    let pos' := (it_pos it + Z.to_nat (so_advance o))%nat in
    if (length (it_data it) <? pos')%nat then free Panic
    else free (Ok (true, with_pos it pos' (it_start it)))
  end.
(** phrases/iterator.go:39-77; the loop over alphanumerics and spaces reads one byte more than it passes *)
Definition t_Next (it0 : iter) : T (bool * iter) :=
  if (length (it_data it0) <=? it_pos it0)%nat then free (Ok (false, it0)) else
  let it := with_pos it0 (it_pos it0) (it_pos it0) in
  d <~ free (slice_from (it_data it) (it_pos it)) ;;
  n <~ steps (alnum_space_run d + 1) (Ok (alnum_space_run d)) ;;
  let pos1 := (it_pos it + n)%nat in
  if (length (it_data it) <=? pos1)%nat then free (Ok (true, with_pos it pos1 (it_start it)))
  else
    let pos2 := if (it_start it <? pos1)%nat then (pos1 - 1)%nat else pos1 in
    t_next_split (with_pos it pos2 (it_start it)).
