(** The functions of package sentences once more, counting steps: one step for each lookup of a character in the trie, and one for each byte read by the ASCII fast path
    of Next.  Apart from the counting each definition is the one of Sentences.v with the same name, which cites the Go lines; CostSentences.v proves that the results are the same. *)
From Verif Require Import Base Trie TableSentences Cost Sentences.
Local Open Scope N_scope.

(** sentences/seek.go:7-43 *)
Fixpoint t_subsequent_loop (fuel : nat) (properties : N) (data : bytes) (atEOF : bool) (i : nat) : T (option nat * bool) :=
  match fuel with
  | O => free OutOfFuel
  | S fuel' =>
    if (i <? length data)%nat then
      d <~ free (slice_from data i) ;;
      ' (v, w) <~ steps 1 (sentences_lookup d) ;;
      if Nat.eqb w 0 then
        if atEOF then free (Ok (None, false)) else free (Ok (None, true))
      else if is v _Ignore then t_subsequent_loop fuel' properties data atEOF (i + w)
      else if is v properties then free (Ok (Some i, false))
      else free (Ok (None, false))
    else
      if atEOF then free (Ok (None, false)) else free (Ok (None, true))
  end.
Definition t_subsequent (properties : N) (data : bytes) (atEOF : bool) : T (option nat * bool) :=
  t_subsequent_loop (S (length data)) properties data atEOF 0.

(** sentences/splitfunc.go:148-167 *)
Fixpoint t_sb8_scan (fuel : nat) (data : bytes) (atEOF : bool) (p : nat) : T scan_out :=
  match fuel with
  | O => free OutOfFuel
  | S fuel' =>
    if (p <? length data)%nat then
      d <~ free (slice_from data p) ;;
      ' (v, w) <~ steps 1 (sentences_lookup d) ;;
      if Nat.eqb w 0 then (if atEOF then free (Ok ScanEOF) else free (Ok ScanMore))
      else if is v (N.lor _OLetter (N.lor _Upper (N.lor _Lower (N.lor _ParaSep _SATerm)))) then free (Ok (ScanAt p))
      else t_sb8_scan fuel' data atEOF (p + w)
    else free (Ok (ScanAt p))
  end.
(** sentences/splitfunc.go:105-209 *)
Definition t_s_rules (data : bytes) (atEOF : bool) (current last : N) (h : shist) (pos w : nat) : T sdecision :=
  (* both zero: no rule can apply *)
  if N.lor current last =? 0 then free (Ok (SJoin (pos + w)))
  (* SB3 *)
  else if is current _LF && is last _CR then free (Ok (SJoin (pos + w)))
  (* SB4 *)
  else if is last _ParaSep then free (Ok (SBreak pos))
  (* SB5 *)
  else if is current (N.lor _Extend _Format) then free (Ok (SJoin (pos + w)))
  (* SB6 *)
  else if is current _Numeric && is (h_lastEx h) _ATerm then free (Ok (SJoin (pos + w)))
  (* SB7 *)
  else if is current _Upper && is (h_lastEx h) _ATerm && is (h_lastLastEx h) (N.lor _Upper _Lower)
  then free (Ok (SJoin (pos + w)))
  (* SB8 *)
  else if is (h_lastExSpClose h) _ATerm then
    sc <~ t_sb8_scan (S (length data)) data atEOF pos ;;
    match sc with
    | ScanEOF => free (Ok (SBreak (length data)))
    | ScanMore => free (Ok SMore)
    | ScanAt p =>
      d <~ free (slice_from data p) ;;
      ' (adv, more) <~ t_subsequent _Lower d atEOF ;;
      if more : bool then free (Ok SMore)
      else match adv with
           | Some a => free (Ok (SJoin (p + a)))
           | None => free (Ok (s_rules_tail current h pos w))
           end
    end
  else free (Ok (s_rules_tail current h pos w)).

(** sentences/splitfunc.go:56-210 *)
Fixpoint t_s_loop (fuel : nat) (data : bytes) (atEOF : bool) (s : sstate) : T (option nat) :=
  match fuel with
  | O => free OutOfFuel
  | S fuel' =>
    if Nat.eqb (s_pos s) (length data) then
      if negb atEOF then free (Ok None) else free (Ok (Some (s_pos s)))
    else
      let last := s_current s in
      let h := s_update last (s_hist s) in
      d <~ free (slice_from data (s_pos s)) ;;
      ' (current, w) <~ steps 1 (sentences_lookup d) ;;
      if Nat.eqb w 0 then
        if atEOF then free (Ok (Some (length data))) else free (Ok None)
      else
        dec <~ t_s_rules data atEOF current last h (s_pos s) w ;;
        match dec with
        | SMore => free (Ok None)
        | SBreak pos => free (Ok (Some pos))
        | SJoin pos =>
          t_s_loop fuel' data atEOF {| s_pos := pos; s_current := current; s_hist := h |}
        end
  end.

(** sentences/splitfunc.go:24-214 *)
Definition t_splitFunc (data : bytes) (atEOF : bool) : T split_out :=
  if is_nil data then free (Ok more) else
  d <~ free (slice_from data 0) ;;
  ' (current, w) <~ steps 1 (sentences_lookup d) ;;
  if Nat.eqb w 0 then
    if negb atEOF then free (Ok more)
    else tok <~ free (slice_to data (length data)) ;; free (Ok (done (length data) tok))
  else
    r <~ t_s_loop (2 * length data + 2) data atEOF {| s_pos := w; s_current := current; s_hist := hist0 |} ;;
    match r with
    | None => free (Ok more)
    | Some pos => tok <~ free (slice_to data pos) ;; free (Ok (done pos tok))
    end.

(** sentences/iterator.go:63-76 *)
Definition t_next_split (it : iter) : T (bool * iter) :=
  remaining <~ free (slice_from (it_data it) (it_pos it)) ;;
  o <~ t_splitFunc remaining true ;;
  match so_err o with
  | Some _ => free Panic
  | None =>
    if (so_advance o <=? 0)%Z then free Panic else
    let pos' := (it_pos it + Z.to_nat (so_advance o))%nat in
    if (length (it_data it) <? pos')%nat then free Panic
    else free (Ok (true, with_pos it pos' (it_start it)))
  end.
(** sentences/iterator.go:39-77; the loop over alphanumerics and spaces reads one byte more than it passes *)
Definition t_Next (it0 : iter) : T (bool * iter) :=
  if (length (it_data it0) <=? it_pos it0)%nat then free (Ok (false, it0)) else
  let it := with_pos it0 (it_pos it0) (it_pos it0) in
  d <~ free (slice_from (it_data it) (it_pos it)) ;;
  n <~ steps (alnum_space_run d + 1) (Ok (alnum_space_run d)) ;;
  let pos1 := (it_pos it + n)%nat in
  if (length (it_data it) <=? pos1)%nat then free (Ok (true, with_pos it pos1 (it_start it)))
  else
    let pos2 := if (it_start it <? pos1)%nat then (pos1 - 1)%nat else pos1 in
    t_next_split (with_pos it pos2 (it_start it)).
