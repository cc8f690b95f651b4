(** Model of package phrases: phrases/splitfunc.go, phrases/seek.go, phrases/iterator.go. *)
From Verif Require Import Base Trie TablePhrases.
Local Open Scope N_scope.

(** phrases/splitfunc.go:12-16 *)
Definition _AHLetter : N := N.lor _ALetter (N.lor _HebrewLetter _ExtendedPictographic).
Definition _MidNumLetQ : N := N.lor _MidNumLet _SingleQuote.
Definition _Ignore : N := N.lor _Extend (N.lor _Format _ZWJ).

(** phrases/seek.go:7-43 subsequent.  Go's (advance, more); notfound (-1) is [None]. *)
Fixpoint subsequent_loop (fuel : nat) (properties : N) (data : bytes) (atEOF : bool) (i : nat)
  : res (option nat * bool) :=
  match fuel with
  | O => OutOfFuel
  | S fuel' =>
    if (i <? length data)%nat then
      d <- slice_from data i ;;
      ' (v, w) <- phrases_lookup d ;;
      if Nat.eqb w 0 then
        if atEOF then Ok (None, false) else Ok (None, true)
      else if is v _Ignore then subsequent_loop fuel' properties data atEOF (i + w)
      else if is v properties then Ok (Some i, false)
      else Ok (None, false)
    else
      if atEOF then Ok (None, false) else Ok (None, true)
  end.
Definition subsequent (properties : N) (data : bytes) (atEOF : bool) : res (option nat * bool) :=
  subsequent_loop (S (length data)) properties data atEOF 0.

(** Loop variables of splitFunc (phrases/splitfunc.go:28-32). *)
Record pstate := {
  p_pos : nat;
  p_current : N;
  p_lastEx : N;
  p_lastLastEx : N;
  p_ri : nat
}.

(** One pass through the rules: [continue] after [pos += adv], [break], or a request for more data. *)
Inductive pdecision := PJoin (adv : nat) (ri : nat) | PBreak | PMore.

(** The shape shared by WB6, WB7b and WB12 (phrases/splitfunc.go:128-140, 155-167, 191-203): when the condition holds look
    ahead; found means [pos += w + advance; continue], otherwise fall through to the next rule. *)
Definition lookahead (cond : bool) (props : N) (after : bytes) (atEOF : bool) (w ri : nat)
           (next : res pdecision) : res pdecision :=
  if cond then
    ' (adv, more) <- subsequent props after atEOF ;;
    if more : bool then Ok PMore
    else match adv with
         | Some a => Ok (PJoin (w + a) ri)
         | None => next
         end
  else next.

(** phrases/splitfunc.go:82-237, the rules.  [after] is data[pos+w:]. *)
Definition p_rules (current last lastEx lastLastEx : N) (ri : nat) (w : nat) (after : bytes) (atEOF : bool)
  : res pdecision :=
  (* both zero: no rule can apply *)
  if N.lor current last =? 0 then Ok PBreak
  (* WB3 *)
  else if is current _LF && is last _CR then Ok (PJoin w ri)
  (* WB3a, WB3b *)
  else if is (N.lor last current) (N.lor _Newline (N.lor _CR _LF)) then Ok PBreak
  (* WB3c *)
  else if is current _ExtendedPictographic && is last _ZWJ then Ok (PJoin w ri)
  (* WB3d *)
  else if is (N.land current last) _WSegSpace then Ok (PJoin w ri)
  (* WB4 *)
  else if is current (N.lor _Extend (N.lor _Format _ZWJ)) then Ok (PJoin w ri)
  (* WB5 *)
  else if is current _AHLetter && is lastEx _AHLetter then Ok (PJoin w ri)
  else
  (* WB6 *)
  lookahead (is current (N.lor _MidLetter _MidNumLetQ) && is lastEx _AHLetter) _AHLetter after atEOF w ri (
  (* WB7 *)
  if is current _AHLetter && is lastEx (N.lor _MidLetter _MidNumLetQ) && is lastLastEx _AHLetter
  then Ok (PJoin w ri)
  (* WB7a *)
  else if is current _SingleQuote && is lastEx _HebrewLetter then Ok (PJoin w ri)
  else
  (* WB7b *)
  lookahead (is current _DoubleQuote && is lastEx _HebrewLetter) _HebrewLetter after atEOF w ri (
  (* WB7c *)
  if is current _HebrewLetter && is lastEx _DoubleQuote && is lastLastEx _HebrewLetter then Ok (PJoin w ri)
  (* WB8, WB9, WB10 and spaces *)
  else if is current (N.lor _Numeric (N.lor _AHLetter _WSegSpace))
          && is lastEx (N.lor _Numeric (N.lor _AHLetter _WSegSpace)) then Ok (PJoin w ri)
  (* WB11 *)
  else if is current _Numeric && is lastEx (N.lor _MidNum _MidNumLetQ) && is lastLastEx _Numeric
  then Ok (PJoin w ri)
  else
  (* WB12 *)
  lookahead (is current (N.lor _MidNum _MidNumLetQ) && is lastEx _Numeric) _Numeric after atEOF w ri (
  (* WB13 *)
  if is current _Katakana && is lastEx _Katakana then Ok (PJoin w ri)
  (* WB13a *)
  else if is current _ExtendNumLet
          && is lastEx (N.lor _AHLetter (N.lor _Numeric (N.lor _Katakana _ExtendNumLet))) then Ok (PJoin w ri)
  (* WB13b *)
  else if is current (N.lor _AHLetter (N.lor _Numeric _Katakana)) && is lastEx _ExtendNumLet then Ok (PJoin w ri)
  (* WB15, WB16 *)
  else if is current _RegionalIndicator && is lastEx _RegionalIndicator then
    if Nat.eqb ((ri + 1) mod 2) 1 then Ok (PJoin w (ri + 1)) else Ok PBreak
  (* WB999 *)
  else Ok PBreak))).

(** phrases/splitfunc.go:51-238, the for loop.  [Ok None]: more data requested. *)
Fixpoint p_loop (fuel : nat) (data : bytes) (atEOF : bool) (s : pstate) : res (option nat) :=
  match fuel with
  | O => OutOfFuel
  | S fuel' =>
    if Nat.eqb (p_pos s) (length data) then
      if negb atEOF then Ok None else Ok (Some (p_pos s))
    else
      let last := p_current s in
      let lastLastEx := if negb (is last _Ignore) then p_lastEx s else p_lastLastEx s in
      let lastEx := if negb (is last _Ignore) then last else p_lastEx s in
      d <- slice_from data (p_pos s) ;;
      ' (current, w) <- phrases_lookup d ;;
      if Nat.eqb w 0 then
        if atEOF then Ok (Some (length data)) else Ok None
      else
        after <- slice_from data (p_pos s + w) ;;
        dec <- p_rules current last lastEx lastLastEx (p_ri s) w after atEOF ;;
        match dec with
        | PMore => Ok None
        | PBreak => Ok (Some (p_pos s))
        | PJoin adv ri' =>
          p_loop fuel' data atEOF
            {| p_pos := p_pos s + adv; p_current := current; p_lastEx := lastEx;
               p_lastLastEx := lastLastEx; p_ri := ri' |}
        end
  end.

Definition more : split_out := {| so_advance := 0; so_token := None; so_err := None |}.
Definition done (pos : nat) (tok : bytes) : split_out :=
  {| so_advance := Z.of_nat pos; so_token := Some tok; so_err := None |}.

(** phrases/splitfunc.go:22-241 splitFunc. *)
Definition splitFunc : splitfun := fun data atEOF =>
  if is_nil data then Ok more else
  d <- slice_from data 0 ;;
  ' (current, w) <- phrases_lookup d ;;
  if Nat.eqb w 0 then
    if negb atEOF then Ok more
    else tok <- slice_to data (length data) ;; Ok (done (length data) tok)
  else
    r <- p_loop (S (length data)) data atEOF
           {| p_pos := w; p_current := current; p_lastEx := 0; p_lastLastEx := 0; p_ri := 0 |} ;;
    match r with
    | None => Ok more
    | Some pos => tok <- slice_to data pos ;; Ok (done pos tok)
    end.

(** phrases/iterator.go:21-27 Iterator (the [split] field is always splitFunc: there is no setter). *)
Record iter := {
  it_data : bytes;
  it_pos : nat;
  it_start : nat
}.

Definition with_pos (it : iter) (pos start : nat) : iter :=
  {| it_data := it_data it; it_pos := pos; it_start := start |}.

(** phrases/iterator.go:3-19 FromString, FromBytes. *)
Definition FromBytes (data : bytes) : iter :=
  {| it_data := data; it_pos := 0; it_start := 0 |}.

(** phrases/iterator.go:34-37 isASCIIAlphanumericOrSpace. *)
Definition isASCIIAlphanumericOrSpace (b : N) : bool :=
  ((0x61 <=? b) && (b <=? 0x7A)) || ((0x41 <=? b) && (b <=? 0x5A)) || ((0x30 <=? b) && (b <=? 0x39)) || (b =? 0x20).

(** phrases/iterator.go:49-51: the number of steps of the loop [for iter.pos < len(iter.data) && ...]
    on the data from iter.pos on. *)
Fixpoint alnum_space_run (d : bytes) : nat :=
  match d with
  | b :: rest => if isASCIIAlphanumericOrSpace b then S (alnum_space_run rest) else 0%nat
  | [] => 0%nat
  end.

(** phrases/iterator.go:63-76: the call of splitFunc, with its panics. *)
Definition next_split (it : iter) : res (bool * iter) :=
  remaining <- slice_from (it_data it) (it_pos it) ;;
  o <- splitFunc remaining true ;;
  match so_err o with
  | Some _ => Panic
  | None =>
    if (so_advance o <=? 0)%Z then Panic else
    let pos' := (it_pos it + Z.to_nat (so_advance o))%nat in
    if (length (it_data it) <? pos')%nat then Panic
    else Ok (true, with_pos it pos' (it_start it))
  end.

(** phrases/iterator.go:39-77 Next. *)
Definition Next (it0 : iter) : res (bool * iter) :=
  if (length (it_data it0) <=? it_pos it0)%nat then Ok (false, it0) else
  let it := with_pos it0 (it_pos it0) (it_pos it0) in
  d <- slice_from (it_data it) (it_pos it) ;;
  let pos1 := (it_pos it + alnum_space_run d)%nat in
  if (length (it_data it) <=? pos1)%nat then Ok (true, with_pos it pos1 (it_start it))
  else
    let pos2 := if (it_start it <? pos1)%nat then (pos1 - 1)%nat else pos1 in
    next_split (with_pos it pos2 (it_start it)).

(** phrases/iterator.go:79-105 Value, Start, End, Reset, SetText. *)
Definition Value (it : iter) : res bytes := slice (it_data it) (it_start it) (it_pos it).
Definition Start (it : iter) : nat := it_start it.
Definition End_ (it : iter) : nat := it_pos it.
Definition Reset (it : iter) : iter := with_pos it 0 0.
Definition SetText (it : iter) (data : bytes) : iter :=
  {| it_data := data; it_pos := 0; it_start := 0 |}.
(** phrases/iterator.go:107-119 First: works on a copy [cp]; the second component is the receiver afterwards. *)
Definition First (it : iter) : res (bytes * iter) :=
  if Nat.eqb (length (it_data it)) 0 then Ok (it_data it, it) else
  let cp := with_pos it 0 0 in
  ' (_, cp') <- Next cp ;;
  v <- Value cp' ;;
  Ok (v, it).
