(** Model of package graphemes: graphemes/splitfunc.go and graphemes/iterator.go. *)
From Verif Require Import Base Trie TableGraphemes Ansi.
Local Open Scope N_scope.

(** graphemes/splitfunc.go:12 *)
Definition _Ignore : N := _Extend.

(** graphemes/splitfunc.go:16-22; the order of the constructors is the order of the iota values. *)
Inductive incbState := incbNone | incbConsonant | incbLinker.
Definition incbNum (s : incbState) : nat :=
  match s with incbNone => 0 | incbConsonant => 1 | incbLinker => 2 end.

(** The loop variables of splitFunc (graphemes/splitfunc.go:36-42). *)
Record gstate := {
  g_pos : nat;
  g_current : N;
  g_lastEx : N;           (* lastExIgnore *)
  g_lastLastEx : N;       (* lastLastExIgnore *)
  g_ri : nat;             (* regionalIndicatorCount *)
  g_incb : incbState
}.

(** graphemes/splitfunc.go:90-105: GB9c state update. *)
Definition g_incb_update (last : N) (incb : incbState) : incbState :=
  if is last (N.lor _InCBConsonant (N.lor _InCBLinker _InCBExtend)) then
    if is last _InCBConsonant then
      match incb with incbLinker => incb | _ => incbConsonant end
    else if is last _InCBLinker then
      if (1 <=? incbNum incb)%nat then incbLinker else incb
    else incb
  else incbNone.

(** What one pass through the rules (graphemes/splitfunc.go:118-199) decides: [continue] after [pos += w] with
    the new values of the count and the GB9c state, or [break]. *)
Inductive gdecision := GJoin (ri : nat) (incb : incbState) | GBreak.

Definition g_rules (current last lastLastEx : N) (ri : nat) (incb : incbState) : gdecision :=
  (* both zero: no rule can apply *)
  if N.lor current last =? 0 then GBreak
  (* GB3 *)
  else if is current _LF && is last _CR then GJoin ri incb
  (* GB4, GB5 *)
  else if is (N.lor current last) (N.lor _Control (N.lor _CR _LF)) then GBreak
  (* GB6 *)
  else if is current (N.lor _L (N.lor _V (N.lor _LV _LVT))) && is last _L then GJoin ri incb
  (* GB7 *)
  else if is current (N.lor _V _T) && is last (N.lor _LV _V) then GJoin ri incb
  (* GB8 *)
  else if is current _T && is last (N.lor _LVT _T) then GJoin ri incb
  (* GB9 *)
  else if is current (N.lor _Extend _ZWJ) then GJoin ri incb
  (* GB9a *)
  else if is current _SpacingMark then GJoin ri incb
  (* GB9b *)
  else if is last _Prepend then GJoin ri incb
  (* GB9c *)
  else if (match incb with incbLinker => true | _ => false end) && is current _InCBConsonant
       then GJoin ri incbConsonant
  (* GB11 *)
  else if is current _ExtendedPictographic && is last _ZWJ && is lastLastEx _ExtendedPictographic
       then GJoin ri incb
  (* GB12, GB13 *)
  else if is (N.land current last) _RegionalIndicator then
    if Nat.eqb ((ri + 1) mod 2) 1 then GJoin (ri + 1)%nat incb else GBreak
  else GBreak.

(** graphemes/splitfunc.go:61-202, the for loop.  [Ok None] is [return 0, empty, nil] (more data requested);
    [Ok (Some pos)] is leaving the loop with this value of pos. *)
Fixpoint g_loop (fuel : nat) (data : bytes) (atEOF : bool) (s : gstate) : res (option nat) :=
  match fuel with
  | O => OutOfFuel
  | S fuel' =>
    if Nat.eqb (g_pos s) (length data) then
      if negb atEOF then Ok None else Ok (Some (g_pos s))
    else
      let last := g_current s in
      let lastLastEx := if negb (is last _Ignore) then g_lastEx s else g_lastLastEx s in
      let lastEx := if negb (is last _Ignore) then last else g_lastEx s in
      let incb := g_incb_update last (g_incb s) in
      d <- slice_from data (g_pos s) ;;
      ' (current, w) <- graphemes_lookup d ;;
      if Nat.eqb w 0 then
        if atEOF then Ok (Some (length data)) else Ok None
      else
        match g_rules current last lastLastEx (g_ri s) incb with
        | GBreak => Ok (Some (g_pos s))
        | GJoin ri' incb' =>
          g_loop fuel' data atEOF
            {| g_pos := g_pos s + w; g_current := current; g_lastEx := lastEx;
               g_lastLastEx := lastLastEx; g_ri := ri'; g_incb := incb' |}
        end
  end.

Definition more : split_out := {| so_advance := 0; so_token := None; so_err := None |}.
Definition done (pos : nat) (tok : bytes) : split_out :=
  {| so_advance := Z.of_nat pos; so_token := Some tok; so_err := None |}.

(** graphemes/splitfunc.go:29-205 splitFunc. *)
Definition splitFunc : splitfun := fun data atEOF =>
  if is_nil data then Ok more else
  d <- slice_from data 0 ;;
  ' (current, w) <- graphemes_lookup d ;;
  if Nat.eqb w 0 then
    if negb atEOF then Ok more
    else tok <- slice_to data (length data) ;; Ok (done (length data) tok)
  else
    r <- g_loop (S (length data)) data atEOF
           {| g_pos := w; g_current := current; g_lastEx := 0; g_lastLastEx := 0; g_ri := 0; g_incb := incbNone |} ;;
    match r with
    | None => Ok more
    | Some pos => tok <- slice_to data pos ;; Ok (done pos tok)
    end.

(** graphemes/iterator.go:25-42 Iterator (the [split] field is always splitFunc: there is no setter). *)
Record iter := {
  it_data : bytes;
  it_pos : nat;
  it_start : nat;
  it_ansi7 : bool;      (* AnsiEscapeSequences *)
  it_ansi8 : bool       (* AnsiEscapeSequences8Bit *)
}.

Definition with_pos (it : iter) (pos start : nat) : iter :=
  {| it_data := it_data it; it_pos := pos; it_start := start; it_ansi7 := it_ansi7 it; it_ansi8 := it_ansi8 it |}.

(** graphemes/iterator.go:7-21 FromString, FromBytes. *)
Definition FromBytes (data : bytes) : iter :=
  {| it_data := data; it_pos := 0; it_start := 0; it_ansi7 := false; it_ansi8 := false |}.

(** Assignment to the two exported fields. *)
Definition setAnsi (it : iter) (a7 a8 : bool) : iter :=
  {| it_data := it_data it; it_pos := it_pos it; it_start := it_start it; it_ansi7 := a7; it_ansi8 := a8 |}.

(** graphemes/iterator.go:88-101: the fallback to splitFunc, with its panics. *)
Definition next_split (it : iter) : res (bool * iter) :=
  remaining <- slice_from (it_data it) (it_pos it) ;;
  o <- splitFunc remaining true ;;
  match so_err o with
  | Some _ => Panic
  | None =>
    if (so_advance o <=? 0)%Z then Panic else
    let pos' := (it_pos it + Z.to_nat (so_advance o))%nat in
    if (length (it_data it) <? pos')%nat then Panic
    else Ok (true, with_pos it pos' (it_start it))
  end.

(** graphemes/iterator.go:80-86: the ASCII hot path, then the fallback. *)
Definition next_ascii (it : iter) (b : N) : res (bool * iter) :=
  if (b <? 0x80) && negb (b =? cr) then
    if (length (it_data it) <=? it_pos it + 1)%nat then Ok (true, with_pos it (it_pos it + 1) (it_start it))
    else
      b' <- byte_at (it_data it) (it_pos it + 1) ;;
      if b' <? 0x80 then Ok (true, with_pos it (it_pos it + 1) (it_start it)) else next_split it
  else next_split it.

(** graphemes/iterator.go:73-78: the 8-bit option. *)
Definition next_ansi8 (it : iter) (b : N) : res (bool * iter) :=
  if it_ansi8 it && ((0x80 <=? b) && (b <=? 0x9F)) then
    d <- slice_from (it_data it) (it_pos it) ;;
    let a := ansiEscapeLength8Bit d in
    if (0 <? a)%nat then Ok (true, with_pos it (it_pos it + a) (it_start it)) else next_ascii it b
  else next_ascii it b.

(** graphemes/iterator.go:60-102 Next. *)
Definition Next (it0 : iter) : res (bool * iter) :=
  if (length (it_data it0) <=? it_pos it0)%nat then Ok (false, it0) else
  let it := with_pos it0 (it_pos it0) (it_pos it0) in
  b <- byte_at (it_data it) (it_pos it) ;;
  if it_ansi7 it && (b =? esc) then
    d <- slice_from (it_data it) (it_pos it) ;;
    let a := ansiEscapeLength d in
    if (0 <? a)%nat then Ok (true, with_pos it (it_pos it + a) (it_start it)) else next_ansi8 it b
  else next_ansi8 it b.

(** graphemes/iterator.go:105-107 Value. *)
Definition Value (it : iter) : res bytes := slice (it_data it) (it_start it) (it_pos it).
(** graphemes/iterator.go:110-117 Start, End. *)
Definition Start (it : iter) : nat := it_start it.
Definition End_ (it : iter) : nat := it_pos it.
(** graphemes/iterator.go:120-123 Reset. *)
Definition Reset (it : iter) : iter := with_pos it 0 0.
(** graphemes/iterator.go:126-130 SetText. *)
Definition SetText (it : iter) (data : bytes) : iter :=
  {| it_data := data; it_pos := 0; it_start := 0; it_ansi7 := it_ansi7 it; it_ansi8 := it_ansi8 it |}.
(** graphemes/iterator.go:133-144 First: works on a copy [cp]; the second component is the receiver afterwards. *)
Definition First (it : iter) : res (bytes * iter) :=
  if Nat.eqb (length (it_data it)) 0 then Ok (it_data it, it) else
  let cp := with_pos it 0 0 in
  ' (_, cp') <- Next cp ;;
  v <- Value cp' ;;
  Ok (v, it).
