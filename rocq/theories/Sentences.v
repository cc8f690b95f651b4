(** Model of package sentences: sentences/splitfunc.go, sentences/seek.go, sentences/iterator.go. *)
From Verif Require Import Base Trie TableSentences.
Local Open Scope N_scope.

(** sentences/splitfunc.go:12-16 *)
Definition _SATerm : N := N.lor _STerm _ATerm.
Definition _ParaSep : N := N.lor _Sep (N.lor _CR _LF).
Definition _Ignore : N := N.lor _Extend _Format.

(** sentences/seek.go:7-43 subsequent.  Go's (advance, more); notfound (-1) is [None]. *)
Fixpoint subsequent_loop (fuel : nat) (properties : N) (data : bytes) (atEOF : bool) (i : nat)
  : res (option nat * bool) :=
  match fuel with
  | O => OutOfFuel
  | S fuel' =>
    if (i <? length data)%nat then
      d <- slice_from data i ;;
      ' (v, w) <- sentences_lookup d ;;
      if Nat.eqb w 0 then
        if atEOF then Ok (None, false) else Ok (None, true)
      else if is v _Ignore then subsequent_loop fuel' properties data atEOF (i + w)
      else if is v properties then Ok (Some i, false)
      else Ok (None, false)
    else
      if atEOF then Ok (None, false) else Ok (None, true)
  end.
Definition subsequent (properties : N) (data : bytes) (atEOF : bool) : res (option nat * bool) :=
  subsequent_loop (S (length data)) properties data atEOF 0.

(** Loop variables of splitFunc (sentences/splitfunc.go:30-37). *)
Record shist := {
  h_lastEx : N;               (* lastExIgnore *)
  h_lastLastEx : N;           (* lastLastExIgnore *)
  h_lastExSp : N;             (* lastExIgnoreSp *)
  h_lastExClose : N;          (* lastExIgnoreClose *)
  h_lastExSpClose : N;        (* lastExIgnoreSpClose *)
  h_lastExParaSepSpClose : N  (* lastExIgnoreParaSepSpClose *)
}.
Record sstate := {
  s_pos : nat;
  s_current : N;
  s_hist : shist
}.

(** sentences/splitfunc.go:70-92: the history after the character with property [last]. *)
Definition s_update (last : N) (h : shist) : shist :=
  let lastLastEx := if negb (is last _Ignore) then h_lastEx h else h_lastLastEx h in
  let lastEx := if negb (is last _Ignore) then last else h_lastEx h in
  let lastExSp := if negb (is lastEx _Sp) then lastEx else h_lastExSp h in
  let lastExClose := if negb (is lastEx _Close) then lastEx else h_lastExClose h in
  let lastExSpClose := if negb (is lastExSp _Close) then lastExSp else h_lastExSpClose h in
  let lastExParaSepSpClose :=
    if negb (is lastExSpClose _ParaSep) then lastExSpClose else h_lastExParaSepSpClose h in
  {| h_lastEx := lastEx; h_lastLastEx := lastLastEx; h_lastExSp := lastExSp; h_lastExClose := lastExClose;
     h_lastExSpClose := lastExSpClose; h_lastExParaSepSpClose := lastExParaSepSpClose |}.

(** sentences/splitfunc.go:148-167: the loop of SB8.  [p] stays put at a stop property; [ScanEOF] is
    [pos = len(data); break main], [ScanMore] is the return asking for more data. *)
Inductive scan_out := ScanAt (p : nat) | ScanEOF | ScanMore.
Fixpoint sb8_scan (fuel : nat) (data : bytes) (atEOF : bool) (p : nat) : res scan_out :=
  match fuel with
  | O => OutOfFuel
  | S fuel' =>
    if (p <? length data)%nat then
      d <- slice_from data p ;;
      ' (v, w) <- sentences_lookup d ;;
      if Nat.eqb w 0 then (if atEOF then Ok ScanEOF else Ok ScanMore)
      else if is v (N.lor _OLetter (N.lor _Upper (N.lor _Lower (N.lor _ParaSep _SATerm)))) then Ok (ScanAt p)
      else sb8_scan fuel' data atEOF (p + w)
    else Ok (ScanAt p)
  end.

(** One pass through the rules: [continue] with this pos, [break] with this pos, or a request for more data. *)
Inductive sdecision := SJoin (pos : nat) | SBreak (pos : nat) | SMore.

(** sentences/splitfunc.go:182-209: the rules after SB8. *)
Definition s_rules_tail (current : N) (h : shist) (pos w : nat) : sdecision :=
  (* SB8a *)
  if is current (N.lor _SContinue _SATerm) && is (h_lastExSpClose h) _SATerm then SJoin (pos + w)
  (* SB9 *)
  else if is current (N.lor _Close (N.lor _Sp _ParaSep)) && is (h_lastExClose h) _SATerm then SJoin (pos + w)
  (* SB10 *)
  else if is current (N.lor _Sp _ParaSep) && is (h_lastExSpClose h) _SATerm then SJoin (pos + w)
  (* SB11 *)
  else if is (h_lastEx h) _SATerm
       || (is (h_lastEx h) _Close && is (h_lastExClose h) _SATerm)
       || (is (h_lastEx h) _Sp && is (h_lastExSpClose h) _SATerm)
       || (is (h_lastEx h) _ParaSep && is (h_lastExParaSepSpClose h) _SATerm) then SBreak pos
  (* SB998 *)
  else SJoin (pos + w).

(** sentences/splitfunc.go:105-209, the rules; [h] is the history including [last]. *)
Definition s_rules (data : bytes) (atEOF : bool) (current last : N) (h : shist) (pos w : nat) : res sdecision :=
  (* both zero: no rule can apply *)
  if N.lor current last =? 0 then Ok (SJoin (pos + w))
  (* SB3 *)
  else if is current _LF && is last _CR then Ok (SJoin (pos + w))
  (* SB4 *)
  else if is last _ParaSep then Ok (SBreak pos)
  (* SB5 *)
  else if is current (N.lor _Extend _Format) then Ok (SJoin (pos + w))
  (* SB6 *)
  else if is current _Numeric && is (h_lastEx h) _ATerm then Ok (SJoin (pos + w))
  (* SB7 *)
  else if is current _Upper && is (h_lastEx h) _ATerm && is (h_lastLastEx h) (N.lor _Upper _Lower)
  then Ok (SJoin (pos + w))
  (* SB8 *)
  else if is (h_lastExSpClose h) _ATerm then
    sc <- sb8_scan (S (length data)) data atEOF pos ;;
    match sc with
    | ScanEOF => Ok (SBreak (length data))
    | ScanMore => Ok SMore
    | ScanAt p =>
      d <- slice_from data p ;;
      ' (adv, more) <- subsequent _Lower d atEOF ;;
      if more : bool then Ok SMore
      else match adv with
           | Some a => Ok (SJoin (p + a))
           | None => Ok (s_rules_tail current h pos w)
           end
    end
  else Ok (s_rules_tail current h pos w).

(** sentences/splitfunc.go:56-210, the for loop.  [Ok None]: more data requested.  An SB8 hit may continue
    without moving pos (when the current character is itself Lower), so the fuel is twice the length. *)
Fixpoint s_loop (fuel : nat) (data : bytes) (atEOF : bool) (s : sstate) : res (option nat) :=
  match fuel with
  | O => OutOfFuel
  | S fuel' =>
    if Nat.eqb (s_pos s) (length data) then
      if negb atEOF then Ok None else Ok (Some (s_pos s))
    else
      let last := s_current s in
      let h := s_update last (s_hist s) in
      d <- slice_from data (s_pos s) ;;
      ' (current, w) <- sentences_lookup d ;;
      if Nat.eqb w 0 then
        if atEOF then Ok (Some (length data)) else Ok None
      else
        dec <- s_rules data atEOF current last h (s_pos s) w ;;
        match dec with
        | SMore => Ok None
        | SBreak pos => Ok (Some pos)
        | SJoin pos =>
          s_loop fuel' data atEOF {| s_pos := pos; s_current := current; s_hist := h |}
        end
  end.

Definition more : split_out := {| so_advance := 0; so_token := None; so_err := None |}.
Definition done (pos : nat) (tok : bytes) : split_out :=
  {| so_advance := Z.of_nat pos; so_token := Some tok; so_err := None |}.

Definition hist0 : shist :=
  {| h_lastEx := 0; h_lastLastEx := 0; h_lastExSp := 0; h_lastExClose := 0; h_lastExSpClose := 0;
     h_lastExParaSepSpClose := 0 |}.

(** sentences/splitfunc.go:24-214 splitFunc. *)
Definition splitFunc : splitfun := fun data atEOF =>
  if is_nil data then Ok more else
  d <- slice_from data 0 ;;
  ' (current, w) <- sentences_lookup d ;;
  if Nat.eqb w 0 then
    if negb atEOF then Ok more
    else tok <- slice_to data (length data) ;; Ok (done (length data) tok)
  else
    r <- s_loop (2 * length data + 2) data atEOF {| s_pos := w; s_current := current; s_hist := hist0 |} ;;
    match r with
    | None => Ok more
    | Some pos => tok <- slice_to data pos ;; Ok (done pos tok)
    end.

(** sentences/iterator.go:21-27 Iterator (the [split] field is always splitFunc: there is no setter). *)
Record iter := {
  it_data : bytes;
  it_pos : nat;
  it_start : nat
}.

Definition with_pos (it : iter) (pos start : nat) : iter :=
  {| it_data := it_data it; it_pos := pos; it_start := start |}.

(** sentences/iterator.go:3-19 FromString, FromBytes. *)
Definition FromBytes (data : bytes) : iter :=
  {| it_data := data; it_pos := 0; it_start := 0 |}.

(** sentences/iterator.go:34-37 isASCIIAlphanumericOrSpace. *)
Definition isASCIIAlphanumericOrSpace (b : N) : bool :=
  ((0x61 <=? b) && (b <=? 0x7A)) || ((0x41 <=? b) && (b <=? 0x5A)) || ((0x30 <=? b) && (b <=? 0x39)) || (b =? 0x20).

(** sentences/iterator.go:49-51: the number of steps of the loop [for iter.pos < len(iter.data) && ...]
    on the data from iter.pos on. *)
Fixpoint alnum_space_run (d : bytes) : nat :=
  match d with
  | b :: rest => if isASCIIAlphanumericOrSpace b then S (alnum_space_run rest) else 0%nat
  | [] => 0%nat
  end.

(** sentences/iterator.go:63-76: the call of splitFunc, with its panics. *)
Definition next_split (it : iter) : res (bool * iter) :=
  remaining <- slice_from (it_data it) (it_pos it) ;;
  o <- splitFunc remaining true ;;
  match so_err o with
  | Some _ => Panic
  | None =>
    if (so_advance o <=? 0)%Z then Panic else
    let pos' := (it_pos it + Z.to_nat (so_advance o))%nat in
    if (length (it_data it) <? pos')%nat then Panic
    else Ok (true, with_pos it pos' (it_start it))
  end.

(** sentences/iterator.go:39-77 Next. *)
Definition Next (it0 : iter) : res (bool * iter) :=
  if (length (it_data it0) <=? it_pos it0)%nat then Ok (false, it0) else
  let it := with_pos it0 (it_pos it0) (it_pos it0) in
  d <- slice_from (it_data it) (it_pos it) ;;
  let pos1 := (it_pos it + alnum_space_run d)%nat in
  if (length (it_data it) <=? pos1)%nat then Ok (true, with_pos it pos1 (it_start it))
  else
    let pos2 := if (it_start it <? pos1)%nat then (pos1 - 1)%nat else pos1 in
    next_split (with_pos it pos2 (it_start it)).

(** sentences/iterator.go:79-105 Value, Start, End, Reset, SetText. *)
Definition Value (it : iter) : res bytes := slice (it_data it) (it_start it) (it_pos it).
Definition Start (it : iter) : nat := it_start it.
Definition End_ (it : iter) : nat := it_pos it.
Definition Reset (it : iter) : iter := with_pos it 0 0.
Definition SetText (it : iter) (data : bytes) : iter :=
  {| it_data := data; it_pos := 0; it_start := 0 |}.
(** sentences/iterator.go:107-119 First: works on a copy [cp]; the second component is the receiver afterwards. *)
Definition First (it : iter) : res (bytes * iter) :=
  if Nat.eqb (length (it_data it)) 0 then Ok (it_data it, it) else
  let cp := with_pos it 0 0 in
  ' (_, cp') <- Next cp ;;
  v <- Value cp' ;;
  Ok (v, it).
