(** Model of package words: words/splitfunc.go, words/seek.go, words/joiners.go, words/iterator.go,
    words/bleve_compat.go. *)
From Verif Require Import Base Trie TableWords Utf8.
Local Open Scope N_scope.

(** words/splitfunc.go:13-17 *)
Definition _AHLetter : N := N.lor _ALetter _HebrewLetter.
Definition _MidNumLetQ : N := N.lor _MidNumLet _SingleQuote.
Definition _Ignore : N := N.lor _Extend (N.lor _Format _ZWJ).

(** words/seek.go:7-43 subsequent.  Go's (advance, more); notfound (-1) is [None].
    [i] is the loop variable. *)
Fixpoint subsequent_loop (fuel : nat) (properties : N) (data : bytes) (atEOF : bool) (i : nat)
  : res (option nat * bool) :=
  match fuel with
  | O => OutOfFuel
  | S fuel' =>
    if (i <? length data)%nat then
      d <- slice_from data i ;;
      ' (v, w) <- words_lookup d ;;
      if Nat.eqb w 0 then
        if atEOF then Ok (None, false) else Ok (None, true)
      else if is v _Ignore then subsequent_loop fuel' properties data atEOF (i + w)
      else if is v properties then Ok (Some i, false)
      else Ok (None, false)
    else
      if atEOF then Ok (None, false) else Ok (None, true)
  end.
Definition subsequent (properties : N) (data : bytes) (atEOF : bool) : res (option nat * bool) :=
  subsequent_loop (S (length data)) properties data atEOF 0.

(** words/joiners.go:12-31 Joiners.  A nil slice and an empty slice behave the same (runesContain is false). *)
Record Joiners := { Middle : list N; Leading : list N }.

(** words/joiners.go:33-41 runesContain. *)
Fixpoint runesContain (runes : list N) (r : N) : bool :=
  match runes with
  | [] => false
  | r' :: rest => if r' =? r then true else runesContain rest r
  end.

(** words/splitfunc.go:66-73 and 110-117: extra bits for a leading / middle joiner at the start of [d].
    A nil receiver is [None]. *)
Definition leadingBits (j : option Joiners) (d : bytes) (current : N) : N :=
  match j with
  | None => current
  | Some jj => if runesContain (Leading jj) (fst (DecodeRune d)) then N.lor current _AHLetter else current
  end.
Definition middleBits (j : option Joiners) (d : bytes) (current : N) : N :=
  match j with
  | None => current
  | Some jj => if runesContain (Middle jj) (fst (DecodeRune d)) then N.lor current _MidNumLet else current
  end.

(** Loop variables of splitFunc (words/splitfunc.go:47-51). *)
Record wstate := {
  w_pos : nat;
  w_current : N;
  w_lastEx : N;
  w_lastLastEx : N;
  w_ri : nat
}.

(** One pass through the rules: [continue] after [pos += adv], [break], or a request for more data. *)
Inductive wdecision := WJoin (adv : nat) (ri : nat) | WBreak | WMore.

(** The shape shared by WB6, WB7b and WB12 (words/splitfunc.go:163-176, 191-204, 219-231): when the condition holds look
    ahead; found means [pos += w + advance; continue], otherwise fall through to the next rule. *)
Definition lookahead (cond : bool) (props : N) (after : bytes) (atEOF : bool) (w ri : nat)
           (next : res wdecision) : res wdecision :=
  if cond then
    ' (adv, more) <- subsequent props after atEOF ;;
    if more : bool then Ok WMore
    else match adv with
         | Some a => Ok (WJoin (w + a) ri)
         | None => next
         end
  else next.

(** words/splitfunc.go:119-266, the rules.  [after] is data[pos+w:]. *)
Definition w_rules (current last lastEx lastLastEx : N) (ri : nat) (w : nat) (after : bytes) (atEOF : bool)
  : res wdecision :=
  (* WB5, WB8, WB9, WB10 *)
  if is current (N.lor _Numeric _AHLetter) && is lastEx (N.lor _Numeric _AHLetter) then Ok (WJoin w ri)
  (* WB3d *)
  else if is (N.land current last) _WSegSpace then Ok (WJoin w ri)
  (* WB3 *)
  else if is current _LF && is last _CR then Ok (WJoin w ri)
  (* WB3a, WB3b *)
  else if is (N.lor last current) (N.lor _Newline (N.lor _CR _LF)) then Ok WBreak
  (* WB3c *)
  else if is current _ExtendedPictographic && is last _ZWJ then Ok (WJoin w ri)
  (* WB4 *)
  else if is current (N.lor _Extend (N.lor _Format _ZWJ)) then Ok (WJoin w ri)
  else
  (* WB6 *)
  lookahead (is current (N.lor _MidLetter _MidNumLetQ) && is lastEx _AHLetter) _AHLetter after atEOF w ri (
  (* WB7 *)
  if is current _AHLetter && is lastEx (N.lor _MidLetter _MidNumLetQ) && is lastLastEx _AHLetter
  then Ok (WJoin w ri)
  (* WB7a *)
  else if is current _SingleQuote && is lastEx _HebrewLetter then Ok (WJoin w ri)
  else
  (* WB7b *)
  lookahead (is current _DoubleQuote && is lastEx _HebrewLetter) _HebrewLetter after atEOF w ri (
  (* WB7c *)
  if is current _HebrewLetter && is lastEx _DoubleQuote && is lastLastEx _HebrewLetter then Ok (WJoin w ri)
  (* WB11 *)
  else if is current _Numeric && is lastEx (N.lor _MidNum _MidNumLetQ) && is lastLastEx _Numeric
  then Ok (WJoin w ri)
  else
  (* WB12 *)
  lookahead (is current (N.lor _MidNum _MidNumLetQ) && is lastEx _Numeric) _Numeric after atEOF w ri (
  (* WB13 *)
  if is current _Katakana && is lastEx _Katakana then Ok (WJoin w ri)
  (* WB13a *)
  else if is current _ExtendNumLet
          && is lastEx (N.lor _AHLetter (N.lor _Numeric (N.lor _Katakana _ExtendNumLet))) then Ok (WJoin w ri)
  (* WB13b *)
  else if is current (N.lor _AHLetter (N.lor _Numeric _Katakana)) && is lastEx _ExtendNumLet then Ok (WJoin w ri)
  (* WB15, WB16 *)
  else if is current _RegionalIndicator && is lastEx _RegionalIndicator then
    if Nat.eqb ((ri + 1) mod 2) 1 then Ok (WJoin w (ri + 1)) else Ok WBreak
  (* WB999 *)
  else Ok WBreak))).

(** words/splitfunc.go:79-266, the for loop.  [Ok None]: more data requested. *)
Fixpoint w_loop (fuel : nat) (j : option Joiners) (data : bytes) (atEOF : bool) (s : wstate) : res (option nat) :=
  match fuel with
  | O => OutOfFuel
  | S fuel' =>
    if Nat.eqb (w_pos s) (length data) then
      if negb atEOF then Ok None else Ok (Some (w_pos s))
    else
      let last := w_current s in
      let lastLastEx := if negb (is last _Ignore) then w_lastEx s else w_lastLastEx s in
      let lastEx := if negb (is last _Ignore) then last else w_lastEx s in
      d <- slice_from data (w_pos s) ;;
      ' (current0, w) <- words_lookup d ;;
      if Nat.eqb w 0 then
        if atEOF then Ok (Some (length data)) else Ok None
      else
        let current := middleBits j d current0 in
        after <- slice_from data (w_pos s + w) ;;
        dec <- w_rules current last lastEx lastLastEx (w_ri s) w after atEOF ;;
        match dec with
        | WMore => Ok None
        | WBreak => Ok (Some (w_pos s))
        | WJoin adv ri' =>
          w_loop fuel' j data atEOF
            {| w_pos := w_pos s + adv; w_current := current; w_lastEx := lastEx;
               w_lastLastEx := lastLastEx; w_ri := ri' |}
        end
  end.

Definition more : split_out := {| so_advance := 0; so_token := None; so_err := None |}.
Definition done (pos : nat) (tok : bytes) : split_out :=
  {| so_advance := Z.of_nat pos; so_token := Some tok; so_err := None |}.

(** words/splitfunc.go:41-269 (j *Joiners).splitFunc. *)
Definition joinersSplitFunc (j : option Joiners) : splitfun := fun data atEOF =>
  if is_nil data then Ok more else
  d <- slice_from data 0 ;;
  ' (current0, w) <- words_lookup d ;;
  if Nat.eqb w 0 then
    if negb atEOF then Ok more
    else tok <- slice_to data (length data) ;; Ok (done (length data) tok)
  else
    let current := leadingBits j d current0 in
    r <- w_loop (S (length data)) j data atEOF
           {| w_pos := w; w_current := current; w_lastEx := 0; w_lastLastEx := 0; w_ri := 0 |} ;;
    match r with
    | None => Ok more
    | Some pos => tok <- slice_to data pos ;; Ok (done pos tok)
    end.

(** words/splitfunc.go:36-39 splitFunc: the zero Joiners (both slices nil). *)
Definition splitFunc : splitfun := joinersSplitFunc (Some {| Middle := []; Leading := [] |}).

(** words/iterator.go:5-10 Iterator.  [Split] and [Joiners] replace the split field. *)
Record iter := {
  it_split : splitfun;
  it_data : bytes;
  it_pos : nat;
  it_start : nat
}.

Definition with_pos (it : iter) (pos start : nat) : iter :=
  {| it_split := it_split it; it_data := it_data it; it_pos := pos; it_start := start |}.

(** words/iterator.go:19-33 FromString, FromBytes. *)
Definition FromBytes (data : bytes) : iter :=
  {| it_split := splitFunc; it_data := data; it_pos := 0; it_start := 0 |}.

(** words/iterator.go:110-112 Split. *)
Definition Split (it : iter) (f : splitfun) : iter :=
  {| it_split := f; it_data := it_data it; it_pos := it_pos it; it_start := it_start it |}.
(** words/joiners.go:5-7 (iter).Joiners; a nil pointer is [None]. *)
Definition setJoiners (it : iter) (j : option Joiners) : iter := Split it (joinersSplitFunc j).

(** words/iterator.go:36-38 isASCIIAlphanumeric. *)
Definition isASCIIAlphanumeric (b : N) : bool :=
  ((0x61 <=? b) && (b <=? 0x7A)) || ((0x41 <=? b) && (b <=? 0x5A)) || ((0x30 <=? b) && (b <=? 0x39)).

(** words/iterator.go:54-56: [end] is advanced over ASCII alphanumerics; here the number of them at the front
    of the given bytes (data from [end] on). *)
Fixpoint alnum_run (d : bytes) : nat :=
  match d with
  | b :: rest => if isASCIIAlphanumeric b then S (alnum_run rest) else 0%nat
  | [] => 0%nat
  end.

(** words/iterator.go:65-78: the fallback to iter.split, with its panics. *)
Definition next_split (it : iter) : res (bool * iter) :=
  remaining <- slice_from (it_data it) (it_pos it) ;;
  o <- it_split it remaining true ;;
  match so_err o with
  | Some _ => Panic
  | None =>
    if (so_advance o <=? 0)%Z then Panic else
    let pos' := (it_pos it + Z.to_nat (so_advance o))%nat in
    if (length (it_data it) <? pos')%nat then Panic
    else Ok (true, with_pos it pos' (it_start it))
  end.

(** words/iterator.go:42-79 Next. *)
Definition Next (it0 : iter) : res (bool * iter) :=
  if (length (it_data it0) <=? it_pos it0)%nat then Ok (false, it0) else
  let it := with_pos it0 (it_pos it0) (it_pos it0) in
  b <- byte_at (it_data it) (it_pos it) ;;
  if isASCIIAlphanumeric b then
    d <- slice_from (it_data it) (it_pos it + 1) ;;
    let end_ := (it_pos it + 1 + alnum_run d)%nat in
    if (length (it_data it) <=? end_)%nat then Ok (true, with_pos it end_ (it_start it))
    else
      b' <- byte_at (it_data it) end_ ;;
      if b' =? 0x20 then Ok (true, with_pos it end_ (it_start it)) else next_split it
  else next_split it.

(** words/iterator.go:82-107 Value, Start, End, Reset, SetText. *)
Definition Value (it : iter) : res bytes := slice (it_data it) (it_start it) (it_pos it).
Definition Start (it : iter) : nat := it_start it.
Definition End_ (it : iter) : nat := it_pos it.
Definition Reset (it : iter) : iter := with_pos it 0 0.
Definition SetText (it : iter) (data : bytes) : iter :=
  {| it_split := it_split it; it_data := data; it_pos := 0; it_start := 0 |}.
(** words/iterator.go:115-126 First: works on a copy [cp]; the second component is the receiver afterwards. *)
Definition First (it : iter) : res (bytes * iter) :=
  if Nat.eqb (length (it_data it)) 0 then Ok (it_data it, it) else
  let cp := with_pos it 0 0 in
  ' (_, cp') <- Next cp ;;
  v <- Value cp' ;;
  Ok (v, it).

(** words/bleve_compat.go:6-71 BleveNumeric: the loop. *)
Fixpoint bn_loop (fuel : nat) (token : bytes) (pos : nat) (current0 lastEx0 lastLastEx0 : N) : res bool :=
  match fuel with
  | O => OutOfFuel
  | S fuel' =>
    if (pos <? length token)%nat then
      let last := current0 in
      let lastLastEx := if negb (is last _Ignore) then lastEx0 else lastLastEx0 in
      let lastEx := if negb (is last _Ignore) then last else lastEx0 in
      d <- slice_from token pos ;;
      ' (current, w) <- words_lookup d ;;
      let continue adv := bn_loop fuel' token (pos + adv) current lastEx lastLastEx in
      if Nat.eqb pos 0 then
        if is current (N.lor _Numeric _ExtendNumLet) then continue w else Ok false
      else if is last _Numeric && is current _Numeric then continue w
      else if is current _Numeric && is lastEx (N.lor _MidNum _MidNumLetQ) && is lastLastEx _Numeric then continue w
      else
        let tail :=
          if is current _ExtendNumLet && is lastEx (N.lor _Numeric _ExtendNumLet) then continue w
          else if is current _Numeric && is lastEx _ExtendNumLet then continue w
          else Ok false in
        if is current (N.lor _MidNum _MidNumLetQ) && is lastEx _Numeric then
          after <- slice_from token (pos + w) ;;
          ' (adv, _) <- subsequent _Numeric after true ;;
          match adv with
          | Some a => continue (w + a)%nat
          | None => tail
          end
        else tail
    else Ok true
  end.
Definition BleveNumeric (token : bytes) : res bool := bn_loop (S (length token)) token 0 0 0 0.

(** words/bleve_compat.go:77-104 BleveIdeographic: the loop. *)
Fixpoint bi_loop (fuel : nat) (token : bytes) (pos : nat) : res bool :=
  match fuel with
  | O => OutOfFuel
  | S fuel' =>
    if (pos <? length token)%nat then
      d <- slice_from token pos ;;
      ' (current, w) <- words_lookup d ;;
      if Nat.eqb pos 0 then
        if is current _BleveIdeographic then bi_loop fuel' token (pos + w) else Ok false
      else if is current (N.lor _BleveIdeographic (N.lor _ExtendNumLet _Ignore)) then bi_loop fuel' token (pos + w)
      else Ok false
    else Ok true
  end.
Definition BleveIdeographic (token : bytes) : res bool := bi_loop (S (length token)) token 0.
