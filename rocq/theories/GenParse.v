(** Model of the first part of (prop).generateTrie and of getRuneRange, internal/gen/main.go:104-198 and 313-344, and of the Go
    standard library functions they call (not part of /repo, modelled from their published source): bufio.Reader.ReadString,
    strings.Split, strings.TrimSpace, strconv.ParseInt.  An error value is [None]. *)
From Verif Require Import Base GenMain Triegen SpecData.
From Coq Require Import String.
Local Open Scope N_scope.

(** main.go:112-118: ReadString('\n') until io.EOF.  A last line without newline comes together with io.EOF and is dropped. *)
Fixpoint lines_from (acc s : bytes) : list bytes :=
  match s with
  | [] => []
  | b :: r => if b =? 10 then (rev acc ++ [10]) :: lines_from [] r else lines_from (b :: acc) r
  end.
Definition lines (s : bytes) : list bytes := lines_from [] s.

(** strings.Split with a separator of one byte. *)
Fixpoint split1 (c : N) (s : bytes) : list bytes :=
  match s with
  | [] => [[]]
  | b :: r => if b =? c then [] :: split1 c r else match split1 c r with p :: ps => (b :: p) :: ps | [] => [[b]] end
  end.
(** strings.Split(s, ".."). *)
Fixpoint split_dots (s : bytes) : list bytes :=
  match s with
  | [] => [[]]
  | b :: r => match r with
      | c :: r' => if (b =? 46) && (c =? 46) then [] :: split_dots r' else match split_dots r with p :: ps => (b :: p) :: ps | [] => [[b]] end
      | [] => [[b]]
      end
  end.

(** strings: asciiSpace. *)
Definition asciiSpace (c : N) : bool := ((9 <=? c) && (c <=? 13)) || (c =? 32).
(** The first loop of strings.TrimSpace: the rest, and whether it stopped at a byte that is not ASCII. *)
Fixpoint trim_start (s : bytes) : bytes * bool :=
  match s with
  | [] => ([], false)
  | c :: r => if 0x80 <=? c then (s, true) else if asciiSpace c then trim_start r else (s, false)
  end.

(** strconv: the value of a hexadecimal digit. *)
Definition hexval (c : N) : option N :=
  if (0x30 <=? c) && (c <=? 0x39) then Some (c - 0x30)
  else if (0x41 <=? c) && (c <=? 0x46) then Some (c - 0x41 + 10)
  else if (0x61 <=? c) && (c <=? 0x66) then Some (c - 0x61 + 10)
  else None.
(** The digits; a single underscore is allowed before a digit (strconv.underscoreOK, base 0). *)
Fixpoint hexdigits (underscore : bool) (s : bytes) (n : N) : option N :=
  match s with
  | [] => if underscore then None else Some n
  | c :: r => if c =? 95 then (if underscore then None else hexdigits true r n)
      else match hexval c with Some d => hexdigits false r (n * 16 + d) | None => None end
  end.
(** strconv.ParseInt("0x"+s, 0, 32); there is no sign after 0x.  "0x" alone is read as octal and fails. *)
Definition ParseHex32 (s : bytes) : option N :=
  match s with
  | [] => None
  | _ => match hexdigits false s 0 with Some n => if n <? 0x80000000 then Some n else None | None => None end
  end.

(** The runes lo, lo+1, ..., n of them. *)
Fixpoint run_from (lo : N) (n : nat) : list N := match n with O => [] | S n' => lo :: run_from (lo + 1) n' end.

Section Trim.
  (** strings.TrimFunc and strings.TrimRightFunc with unicode.IsSpace, used by TrimSpace only from a byte that is not ASCII on: arbitrary here. *)
  Variable trimFunc trimRightFunc : bytes -> bytes.

  (** strings.TrimSpace. *)
  Definition TrimSpace (s : bytes) : bytes :=
    let '(a, u) := trim_start s in
    if u then trimFunc a
    else let '(z, u') := trim_start (rev a) in if u' then trimRightFunc (rev z) else rev z.

  (** main.go:313-344.  The loop "for r := lo + 1; r <= hi; r++" on int32 never ends when hi is the greatest int32. *)
  Definition getRuneRange (s : bytes) : res (option (list N)) :=
    let hilo := split_dots (TrimSpace s) in
    match nth_error hilo 0 with
    | None => Panic
    | Some h => match ParseHex32 h with
        | None => Ok None
        | Some lo => match nth_error hilo 1 with
            | None => Ok (Some [lo])
            | Some h' => match ParseHex32 h' with
                | None => Ok None
                | Some hi => if hi =? lo then Ok (Some [lo])
                    else if (lo <? hi) && (hi =? 0x7FFFFFFF) then OutOfFuel
                    else Ok (Some (lo :: run_from (lo + 1) (N.to_nat (hi - lo))))
                end
            end
        end
    end.

  (** main.go:128-149: one line, to the property and its runes. *)
  Definition parse_line (s : bytes) : res (option (bytes * list N)) :=
    let parts := split1 59 s in
    match nth_error parts 0 with
    | None => Panic
    | Some p0 =>
        runes <- getRuneRange p0 ;;
        match runes with
        | None => Ok None
        | Some rs => match nth_error parts 1 with
            | None => Panic
            | Some p1 => match nth_error parts 2 with
                | Some p2 => match nth_error (split1 35 p2) 0 with
                    | None => Panic
                    | Some v => Ok (Some (TrimSpace p1 ++ [95] ++ TrimSpace v, rs))
                    end
                | None => match nth_error (split1 35 p1) 0 with
                    | None => Panic
                    | Some v => Ok (Some (TrimSpace v, rs))
                    end
                end
            end
        end
    end.

  (** main.go:151: runesByProperty[property] = append(runesByProperty[property], runes...). *)
  Fixpoint append_at (k : bytes) (rs : list N) (m : list (bytes * list N)) : list (bytes * list N) :=
    match m with
    | [] => [(k, rs)]
    | (k', rs') :: r => if bytes_eqb k' k then (k', rs' ++ rs) :: r else (k', rs') :: append_at k rs r
    end.

  (** main.go:111-152. *)
  Fixpoint parse_lines (ls : list bytes) (m : list (bytes * list N)) : res (option (list (bytes * list N))) :=
    match ls with
    | [] => Ok (Some m)
    | s :: r => match s with
        | [] => parse_lines r m
        | c :: _ => if (c =? 10) || (c =? 35) then parse_lines r m
            else e <- parse_line s ;; match e with None => Ok None | Some (p, rs) => parse_lines r (append_at p rs m) end
        end
    end.
  Definition parse (file : bytes) : res (option (list (bytes * list N))) := parse_lines (lines file) [].

  (** m[k] and m[k] = rs. *)
  Fixpoint runes_at (k : bytes) (m : list (bytes * list N)) : list N := match m with [] => [] | (k', rs) :: r => if bytes_eqb k' k then rs else runes_at k r end.
  Fixpoint put_at (k : bytes) (rs : list N) (m : list (bytes * list N)) : list (bytes * list N) :=
    match m with [] => [(k, rs)] | (k', rs') :: r => if bytes_eqb k' k then (k, rs) :: r else (k', rs') :: put_at k rs r end.

  Inductive package := Grapheme | Word | Sentence | Phrase.

  Local Open Scope string_scope.
  (** main.go:154-198 for one of the four packages; [pict] is extendedPictographic, [cons], [link] and [ext] are the fields of
      indicConjunctBreak, [ideo] the runes of unicode.Han and unicode.Hiragana. *)
  Definition assemble (p : package) (pict cons link ext ideo : list N) (m : list (bytes * list N)) : res (list (bytes * list N)) :=
    let needs_pict := match p with Word | Phrase | Grapheme => true | Sentence => false end in
    if needs_pict && is_nil pict then Panic
    else let m := if needs_pict then put_at (str "Extended_Pictographic") pict m else m in
    match p with
    | Grapheme => if is_nil cons then Panic
        else Ok (put_at (str "InCB_Extend") ext (put_at (str "InCB_Linker") link (put_at (str "InCB_Consonant") cons m)))
    | Word => Ok (put_at (str "BleveIdeographic") (runes_at (str "Katakana") m ++ ideo) m)
    | _ => Ok m
    end.

  (** main.go:28-62: the files of the properties Emoji and InCB come first, an error is a panic. *)
  Definition load (f : bytes) : res (list (bytes * list N)) := m <- parse f ;; match m with Some m => Ok m | None => Panic end.
  Definition main_properties (p : package) (emoji incb break : bytes) (ideo : list N) : res (list (bytes * list N)) :=
    e <- load emoji ;;
    i <- load incb ;;
    m <- load break ;;
    assemble p (runes_at (str "Extended_Pictographic") e) (runes_at (str "InCB_Consonant") i) (runes_at (str "InCB_Linker") i) (runes_at (str "InCB_Extend") i) ideo m.
  (** The trie that main builds for a package; maps are visited in any order. *)
  Inductive main_generates (p : package) (emoji incb break : bytes) (ideo : list N) : res node -> Prop :=
    | main_panic : main_properties p emoji incb break ideo = Panic -> main_generates p emoji incb break ideo Panic
    | main_stuck : main_properties p emoji incb break ideo = OutOfFuel -> main_generates p emoji incb break ideo OutOfFuel
    | main_trie : forall props r, main_properties p emoji incb break ideo = Ok props -> generates props r -> main_generates p emoji incb break ideo r.
End Trim.
