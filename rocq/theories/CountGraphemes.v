(** The functions of package graphemes once more, counting steps: one step for each lookup of a character in the trie, and one for each byte read by the scans for escape
    sequences and by the ASCII fast path of Next.  Apart from the counting each definition is the one of Graphemes.v or Ansi.v with the same name, which cites the Go lines;
    CostGraphemes.v proves that the results are the same. *)
From Verif Require Import Base Trie TableGraphemes Ansi Cost Graphemes.
Local Open Scope N_scope.

(** graphemes/ansi.go:69-89 *)
Fixpoint t_csiBodyLoop (data : bytes) (i : nat) (seenIntermediate : bool) : T nat :=
  match data with
  | [] => free (Ok 0%nat)
  | b :: rest =>
    _ <~ steps 1 (Ok tt) ;;
    if inRange 0x30 0x3F b then
      if seenIntermediate then free (Ok 0%nat) else t_csiBodyLoop rest (S i) seenIntermediate
    else if inRange 0x20 0x2F b then t_csiBodyLoop rest (S i) true
    else if inRange 0x40 0x7E b then free (Ok (S i))
    else free (Ok 0%nat)
  end.
(** graphemes/ansi.go:101-115 *)
Fixpoint t_oscLoop (data : bytes) (i : nat) : T (option nat) :=
  match data with
  | [] => free (Ok None)
  | b :: rest =>
    _ <~ steps 1 (Ok tt) ;;
    if b =? bel then free (Ok (Some (i + 1)%nat))
    else if (b =? can) || (b =? sub) then free (Ok (Some i))
    else if (b =? esc) && (match rest with b' :: _ => b' =? 0x5C | [] => false end) then free (Ok (Some (i + 2)%nat))
    else t_oscLoop rest (S i)
  end.
(** graphemes/ansi.go:128-138 *)
Fixpoint t_stLoop (data : bytes) (i : nat) : T (option nat) :=
  match data with
  | [] => free (Ok None)
  | b :: rest =>
    _ <~ steps 1 (Ok tt) ;;
    if (b =? can) || (b =? sub) then free (Ok (Some i))
    else if (b =? esc) && (match rest with b' :: _ => b' =? 0x5C | [] => false end) then free (Ok (Some (i + 2)%nat))
    else t_stLoop rest (S i)
  end.
(** graphemes/ansi.go:49-56 *)
Fixpoint t_nFLoop (data : bytes) (i : nat) : T nat :=
  match data with
  | [] => free (Ok 0%nat)
  | b :: rest =>
    _ <~ steps 1 (Ok tt) ;;
    if inRange 0x20 0x2F b then t_nFLoop rest (S i)
    else if inRange 0x30 0x7E b then free (Ok (S i))
    else free (Ok 0%nat)
  end.
(** graphemes/ansi.go:11-60 *)
Definition t_ansiEscapeLength (data : bytes) : T nat :=
  match data with
  | b0 :: b1 :: rest =>
    if negb (b0 =? esc) then free (Ok 0%nat)
    else if b1 =? 0x5B then
      body <~ t_csiBodyLoop rest 0 false ;;
      free (Ok (if (body =? 0)%nat then 0%nat else (2 + body)%nat))
    else if b1 =? 0x5D then
      o <~ t_oscLoop rest 0 ;;
      free (Ok (match o with None => 0%nat | Some body => (2 + body)%nat end))
    else if (b1 =? 0x50) || (b1 =? 0x58) || (b1 =? 0x5E) || (b1 =? 0x5F) then
      o <~ t_stLoop rest 0 ;;
      free (Ok (match o with None => 0%nat | Some body => (2 + body)%nat end))
    else if inRange 0x40 0x7E b1 then free (Ok 2%nat)
    else if inRange 0x30 0x3F b1 then free (Ok 2%nat)
    else if inRange 0x20 0x2F b1 then t_nFLoop rest 2
    else free (Ok 0%nat)
  | _ => free (Ok 0%nat)
  end.
(** graphemes/ansi8.go:53-64 *)
Fixpoint t_oscC1Loop (data : bytes) (i : nat) : T (option nat) :=
  match data with
  | [] => free (Ok None)
  | b :: rest =>
    _ <~ steps 1 (Ok tt) ;;
    if (b =? bel) || (b =? st) then free (Ok (Some (i + 1)%nat))
    else if (b =? can) || (b =? sub) then free (Ok (Some i))
    else t_oscC1Loop rest (S i)
  end.
(** graphemes/ansi8.go:68-79 *)
Fixpoint t_stC1Loop (data : bytes) (i : nat) : T (option nat) :=
  match data with
  | [] => free (Ok None)
  | b :: rest =>
    _ <~ steps 1 (Ok tt) ;;
    if (b =? can) || (b =? sub) then free (Ok (Some i))
    else if b =? st then free (Ok (Some (i + 1)%nat))
    else t_stC1Loop rest (S i)
  end.
(** graphemes/ansi8.go:11-42 *)
Definition t_ansiEscapeLength8Bit (data : bytes) : T nat :=
  match data with
  | [] => free (Ok 0%nat)
  | b0 :: rest =>
    if b0 =? 0x9B then
      body <~ t_csiBodyLoop rest 0 false ;;
      free (Ok (if (body =? 0)%nat then 0%nat else (1 + body)%nat))
    else if b0 =? 0x9D then
      o <~ t_oscC1Loop rest 0 ;;
      free (Ok (match o with None => 0%nat | Some body => (1 + body)%nat end))
    else if (b0 =? 0x90) || (b0 =? 0x98) || (b0 =? 0x9E) || (b0 =? 0x9F) then
      o <~ t_stC1Loop rest 0 ;;
      free (Ok (match o with None => 0%nat | Some body => (1 + body)%nat end))
    else if inRange 0x80 0x9F b0 then free (Ok 1%nat)
    else free (Ok 0%nat)
  end.

(** graphemes/splitfunc.go:61-202 *)
Fixpoint t_g_loop (fuel : nat) (data : bytes) (atEOF : bool) (s : gstate) : T (option nat) :=
  match fuel with
  | O => free OutOfFuel
  | S fuel' =>
    if Nat.eqb (g_pos s) (length data) then
      if negb atEOF then free (Ok None) else free (Ok (Some (g_pos s)))
    else
      let last := g_current s in
      let lastLastEx := if negb (is last _Ignore) then g_lastEx s else g_lastLastEx s in
      let lastEx := if negb (is last _Ignore) then last else g_lastEx s in
      let incb := g_incb_update last (g_incb s) in
      d <~ free (slice_from data (g_pos s)) ;;
      ' (current, w) <~ steps 1 (graphemes_lookup d) ;;
      if Nat.eqb w 0 then
        if atEOF then free (Ok (Some (length data))) else free (Ok None)
      else
        match g_rules current last lastLastEx (g_ri s) incb with
        | GBreak => free (Ok (Some (g_pos s)))
        | GJoin ri' incb' =>
          t_g_loop fuel' data atEOF
            {| g_pos := g_pos s + w; g_current := current; g_lastEx := lastEx;
               g_lastLastEx := lastLastEx; g_ri := ri'; g_incb := incb' |}
        end
  end.
(** graphemes/splitfunc.go:29-205 *)
Definition t_splitFunc (data : bytes) (atEOF : bool) : T split_out :=
  if is_nil data then free (Ok more) else
  d <~ free (slice_from data 0) ;;
  ' (current, w) <~ steps 1 (graphemes_lookup d) ;;
  if Nat.eqb w 0 then
    if negb atEOF then free (Ok more)
    else tok <~ free (slice_to data (length data)) ;; free (Ok (done (length data) tok))
  else
    r <~ t_g_loop (S (length data)) data atEOF
           {| g_pos := w; g_current := current; g_lastEx := 0; g_lastLastEx := 0; g_ri := 0; g_incb := incbNone |} ;;
    match r with
    | None => free (Ok more)
    | Some pos => tok <~ free (slice_to data pos) ;; free (Ok (done pos tok))
    end.

(** graphemes/iterator.go:88-101 *)
Definition t_next_split (it : iter) : T (bool * iter) :=
  remaining <~ free (slice_from (it_data it) (it_pos it)) ;;
  o <~ t_splitFunc remaining true ;;
  match so_err o with
  | Some _ => free Panic
  | None =>
    if (so_advance o <=? 0)%Z then free Panic else
    let pos' := (it_pos it + Z.to_nat (so_advance o))%nat in
    if (length (it_data it) <? pos')%nat then free Panic
    else free (Ok (true, with_pos it pos' (it_start it)))
  end.
(** graphemes/iterator.go:80-86 *)
Definition t_next_ascii (it : iter) (b : N) : T (bool * iter) :=
  if (b <? 0x80) && negb (b =? cr) then
    if (length (it_data it) <=? it_pos it + 1)%nat then free (Ok (true, with_pos it (it_pos it + 1) (it_start it)))
    else
      b' <~ steps 1 (byte_at (it_data it) (it_pos it + 1)) ;;
      if b' <? 0x80 then free (Ok (true, with_pos it (it_pos it + 1) (it_start it))) else t_next_split it
  else t_next_split it.
(** graphemes/iterator.go:73-78 *)
Definition t_next_ansi8 (it : iter) (b : N) : T (bool * iter) :=
  if it_ansi8 it && ((0x80 <=? b) && (b <=? 0x9F)) then
    d <~ free (slice_from (it_data it) (it_pos it)) ;;
    a <~ t_ansiEscapeLength8Bit d ;;
    if (0 <? a)%nat then free (Ok (true, with_pos it (it_pos it + a) (it_start it))) else t_next_ascii it b
  else t_next_ascii it b.
(** graphemes/iterator.go:60-102 *)
Definition t_Next (it0 : iter) : T (bool * iter) :=
  if (length (it_data it0) <=? it_pos it0)%nat then free (Ok (false, it0)) else
  let it := with_pos it0 (it_pos it0) (it_pos it0) in
  b <~ steps 1 (byte_at (it_data it) (it_pos it)) ;;
  if it_ansi7 it && (b =? esc) then
    d <~ free (slice_from (it_data it) (it_pos it)) ;;
    a <~ t_ansiEscapeLength d ;;
    if (0 <? a)%nat then free (Ok (true, with_pos it (it_pos it + a) (it_start it))) else t_next_ansi8 it b
  else t_next_ansi8 it b.
