(** The functions of package words once more, counting steps: one step for each lookup of a character in the trie, one for each decoding of a character and for each
    comparison with a joiner, and one for each byte read by the ASCII fast path
    of Next.  Apart from the counting each definition is the one of Words.v with the same name, which cites the Go lines; CostWords.v proves that the results are the same. *)
From Verif Require Import Base Trie TableWords Utf8 Cost Words.
Local Open Scope N_scope.

(** words/seek.go:7-43 *)
Fixpoint t_subsequent_loop (fuel : nat) (properties : N) (data : bytes) (atEOF : bool) (i : nat) : T (option nat * bool) :=
  match fuel with
  | O => free OutOfFuel
  | S fuel' =>
    if (i <? length data)%nat then
      d <~ free (slice_from data i) ;;
      ' (v, w) <~ steps 1 (words_lookup d) ;;
      if Nat.eqb w 0 then
        if atEOF then free (Ok (None, false)) else free (Ok (None, true))
      else if is v _Ignore then t_subsequent_loop fuel' properties data atEOF (i + w)
      else if is v properties then free (Ok (Some i, false))
      else free (Ok (None, false))
    else
      if atEOF then free (Ok (None, false)) else free (Ok (None, true))
  end.
Definition t_subsequent (properties : N) (data : bytes) (atEOF : bool) : T (option nat * bool) :=
  t_subsequent_loop (S (length data)) properties data atEOF 0.

(** words/joiners.go:33-41 *)
Fixpoint t_runesContain (runes : list N) (r : N) : T bool :=
  match runes with
  | [] => free (Ok false)
  | r' :: rest => _ <~ steps 1 (Ok tt) ;; if r' =? r then free (Ok true) else t_runesContain rest r
  end.
(** words/splitfunc.go:66-73 and 110-117 *)
Definition t_leadingBits (j : option Joiners) (d : bytes) (current : N) : T N :=
  match j with
  | None => free (Ok current)
  | Some jj =>
    r <~ steps 1 (Ok (fst (DecodeRune d))) ;;
    b <~ t_runesContain (Leading jj) r ;;
    free (Ok (if b : bool then N.lor current _AHLetter else current))
  end.
Definition t_middleBits (j : option Joiners) (d : bytes) (current : N) : T N :=
  match j with
  | None => free (Ok current)
  | Some jj =>
    r <~ steps 1 (Ok (fst (DecodeRune d))) ;;
    b <~ t_runesContain (Middle jj) r ;;
    free (Ok (if b : bool then N.lor current _MidNumLet else current))
  end.

(** words/splitfunc.go:163-176, 191-204, 219-231 *)
Definition t_lookahead (cond : bool) (props : N) (after : bytes) (atEOF : bool) (w ri : nat) (next : T wdecision) : T wdecision :=
  if cond then
    ' (adv, more) <~ t_subsequent props after atEOF ;;
    if more : bool then free (Ok WMore)
    else match adv with
         | Some a => free (Ok (WJoin (w + a) ri))
         | None => next
         end
  else next.

(** words/splitfunc.go:119-266 *)
Definition t_w_rules (current last lastEx lastLastEx : N) (ri : nat) (w : nat) (after : bytes) (atEOF : bool)
  : T wdecision :=
  (* WB5, WB8, WB9, WB10 *)
  if is current (N.lor _Numeric _AHLetter) && is lastEx (N.lor _Numeric _AHLetter) then free (Ok (WJoin w ri))
  (* WB3d *)
  else if is (N.land current last) _WSegSpace then free (Ok (WJoin w ri))
  (* WB3 *)
  else if is current _LF && is last _CR then free (Ok (WJoin w ri))
  (* WB3a, WB3b *)
  else if is (N.lor last current) (N.lor _Newline (N.lor _CR _LF)) then free (Ok WBreak)
  (* WB3c *)
  else if is current _ExtendedPictographic && is last _ZWJ then free (Ok (WJoin w ri))
  (* WB4 *)
  else if is current (N.lor _Extend (N.lor _Format _ZWJ)) then free (Ok (WJoin w ri))
  else
  (* WB6 *)
  t_lookahead (is current (N.lor _MidLetter _MidNumLetQ) && is lastEx _AHLetter) _AHLetter after atEOF w ri (
  (* WB7 *)
  if is current _AHLetter && is lastEx (N.lor _MidLetter _MidNumLetQ) && is lastLastEx _AHLetter
  then free (Ok (WJoin w ri))
  (* WB7a *)
  else if is current _SingleQuote && is lastEx _HebrewLetter then free (Ok (WJoin w ri))
  else
  (* WB7b *)
  t_lookahead (is current _DoubleQuote && is lastEx _HebrewLetter) _HebrewLetter after atEOF w ri (
  (* WB7c *)
  if is current _HebrewLetter && is lastEx _DoubleQuote && is lastLastEx _HebrewLetter then free (Ok (WJoin w ri))
  (* WB11 *)
  else if is current _Numeric && is lastEx (N.lor _MidNum _MidNumLetQ) && is lastLastEx _Numeric
  then free (Ok (WJoin w ri))
  else
  (* WB12 *)
  t_lookahead (is current (N.lor _MidNum _MidNumLetQ) && is lastEx _Numeric) _Numeric after atEOF w ri (
  (* WB13 *)
  if is current _Katakana && is lastEx _Katakana then free (Ok (WJoin w ri))
  (* WB13a *)
  else if is current _ExtendNumLet
          && is lastEx (N.lor _AHLetter (N.lor _Numeric (N.lor _Katakana _ExtendNumLet))) then free (Ok (WJoin w ri))
  (* WB13b *)
  else if is current (N.lor _AHLetter (N.lor _Numeric _Katakana)) && is lastEx _ExtendNumLet then free (Ok (WJoin w ri))
  (* WB15, WB16 *)
  else if is current _RegionalIndicator && is lastEx _RegionalIndicator then
    if Nat.eqb ((ri + 1) mod 2) 1 then free (Ok (WJoin w (ri + 1))) else free (Ok WBreak)
  (* WB999 *)
  else free (Ok WBreak)))).

(** words/splitfunc.go:79-266 *)
Fixpoint t_w_loop (fuel : nat) (j : option Joiners) (data : bytes) (atEOF : bool) (s : wstate) : T (option nat) :=
  match fuel with
  | O => free OutOfFuel
  | S fuel' =>
    if Nat.eqb (w_pos s) (length data) then
      if negb atEOF then free (Ok None) else free (Ok (Some (w_pos s)))
    else
      let last := w_current s in
      let lastLastEx := if negb (is last _Ignore) then w_lastEx s else w_lastLastEx s in
      let lastEx := if negb (is last _Ignore) then last else w_lastEx s in
      d <~ free (slice_from data (w_pos s)) ;;
      ' (current0, w) <~ steps 1 (words_lookup d) ;;
      if Nat.eqb w 0 then
        if atEOF then free (Ok (Some (length data))) else free (Ok None)
      else
        current <~ t_middleBits j d current0 ;;
        after <~ free (slice_from data (w_pos s + w)) ;;
        dec <~ t_w_rules current last lastEx lastLastEx (w_ri s) w after atEOF ;;
        match dec with
        | WMore => free (Ok None)
        | WBreak => free (Ok (Some (w_pos s)))
        | WJoin adv ri' =>
          t_w_loop fuel' j data atEOF
            {| w_pos := w_pos s + adv; w_current := current; w_lastEx := lastEx;
               w_lastLastEx := lastLastEx; w_ri := ri' |}
        end
  end.

(** words/splitfunc.go:41-269 *)
Definition t_joinersSplitFunc (j : option Joiners) (data : bytes) (atEOF : bool) : T split_out :=
  if is_nil data then free (Ok more) else
  d <~ free (slice_from data 0) ;;
  ' (current0, w) <~ steps 1 (words_lookup d) ;;
  if Nat.eqb w 0 then
    if negb atEOF then free (Ok more)
    else tok <~ free (slice_to data (length data)) ;; free (Ok (done (length data) tok))
  else
    current <~ t_leadingBits j d current0 ;;
    r <~ t_w_loop (S (length data)) j data atEOF
           {| w_pos := w; w_current := current; w_lastEx := 0; w_lastLastEx := 0; w_ri := 0 |} ;;
    match r with
    | None => free (Ok more)
    | Some pos => tok <~ free (slice_to data pos) ;; free (Ok (done pos tok))
    end.

(** words/iterator.go:65-78; [split] is the counting version of the function in the iterator's split field *)
Definition t_next_split (split : bytes -> bool -> T split_out) (it : iter) : T (bool * iter) :=
  remaining <~ free (slice_from (it_data it) (it_pos it)) ;;
  o <~ split remaining true ;;
  match so_err o with
  | Some _ => free Panic
  | None =>
    if (so_advance o <=? 0)%Z then free Panic else
    let pos' := (it_pos it + Z.to_nat (so_advance o))%nat in
    if (length (it_data it) <? pos')%nat then free Panic
    else free (Ok (true, with_pos it pos' (it_start it)))
  end.
(** words/iterator.go:42-79; the loop over alphanumerics reads one byte more than it passes *)
Definition t_Next (split : bytes -> bool -> T split_out) (it0 : iter) : T (bool * iter) :=
  if (length (it_data it0) <=? it_pos it0)%nat then free (Ok (false, it0)) else
  let it := with_pos it0 (it_pos it0) (it_pos it0) in
  b <~ steps 1 (byte_at (it_data it) (it_pos it)) ;;
  if isASCIIAlphanumeric b then
    d <~ free (slice_from (it_data it) (it_pos it + 1)) ;;
    n <~ steps (alnum_run d + 1) (Ok (alnum_run d)) ;;
    let end_ := (it_pos it + 1 + n)%nat in
    if (length (it_data it) <=? end_)%nat then free (Ok (true, with_pos it end_ (it_start it)))
    else
      b' <~ steps 1 (byte_at (it_data it) end_) ;;
      if b' =? 0x20 then free (Ok (true, with_pos it end_ (it_start it))) else t_next_split split it
  else t_next_split split it.
