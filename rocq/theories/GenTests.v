(** Model of (prop).generateTests, internal/gen/main.go:239-311, and of the text that writeTests makes, internal/gen/main.go:346-378, with the standard
    library functions they call (bufio.ScanLines, strings.Split, utf8.RuneLen and EncodeRune, fmt's %#v for byte slices, bytes.ReplaceAll; not part of /repo).
    An error value is [None].  Not modelled: the download, the limit of 64 KiB for a line, format.Source and the writing of the file.
    strconv.Quote, which %#v uses for the comment, is a parameter. *)
From Coq Require Import String.
From Verif Require Import Base SpecUtf8 SpecData GenParse Print.
Local Open Scope N_scope.

(** bufio.ScanLines: without the newline, without one carriage return before it; a last line without newline is a line. *)
Definition drop_cr (l : bytes) : bytes := match rev l with c :: r => if c =? 13 then rev r else l | [] => l end.
Fixpoint scan_lines (acc s : bytes) : list bytes :=
  match s with
  | [] => match acc with [] => [] | _ => [drop_cr (rev acc)] end
  | b :: r => if b =? 10 then drop_cr (rev acc) :: scan_lines [] r else scan_lines (b :: acc) r
  end.

(** main.go:273: strings.Split(data, U+00F7), the division sign: the bytes C3 B7. *)
Fixpoint split_div (s : bytes) : list bytes :=
  match s with
  | [] => [[]]
  | b :: r => match r with
      | c :: r' => if (b =? 0xC3) && (c =? 0xB7) then [] :: split_div r' else match split_div r with p :: ps => (b :: p) :: ps | [] => [[b]] end
      | [] => [[b]]
      end
  end.

(** utf8.RuneLen: [None] for -1. *)
Definition RuneLen (r : N) : option nat :=
  if r <=? 0x7F then Some 1%nat else if r <=? 0x7FF then Some 2%nat else if (0xD800 <=? r) && (r <=? 0xDFFF) then None
  else if r <=? 0xFFFF then Some 3%nat else if r <=? 0x10FFFF then Some 4%nat else None.
(** byte(x) *)
Definition to_byte (x : N) : N := x mod 0x100.
(** byte(x) & 0x3F *)
Definition low6 (x : N) : N := N.land (to_byte x) 0x3F.
(** utf8.EncodeRune, for runes that have a length; it fills the whole of rb. *)
Definition EncodeRune (r : N) : bytes :=
  if r <=? 0x7F then [to_byte r]
  else if r <=? 0x7FF then [N.lor 0xC0 (to_byte (N.shiftr r 6)); N.lor 0x80 (low6 r)]
  else if r <=? 0xFFFF then [N.lor 0xE0 (to_byte (N.shiftr r 12)); N.lor 0x80 (low6 (N.shiftr r 6)); N.lor 0x80 (low6 r)]
  else [N.lor 0xF0 (to_byte (N.shiftr r 18)); N.lor 0x80 (low6 (N.shiftr r 12)); N.lor 0x80 (low6 (N.shiftr r 6)); N.lor 0x80 (low6 r)].
(** main.go:294-296: make([]byte, -1) panics. *)
Definition rune_bytes (r : N) : option bytes := match RuneLen r with Some _ => Some (EncodeRune r) | None => None end.

(** main.go:233-237. *)
Record test := { t_input : bytes; t_expected : list bytes; t_comment : bytes }.

(** main.go:282-299: the values of one segment.  [Ok None]: ParseInt has failed. *)
Fixpoint gen_vals (vals : list bytes) : res (option bytes) :=
  match vals with
  | [] => Ok (Some [])
  | v :: r =>
    if (length v <? 4)%nat then gen_vals r
    else match ParseHex32 v with
         | None => Ok None
         | Some c => match rune_bytes c with
             | None => Panic
             | Some b => e <- gen_vals r ;; Ok (match e with Some l => Some (b ++ l) | None => None end)
             end
         end
  end.
(** main.go:275-301: test.expected; test.input gets the same bytes in the same order. *)
Fixpoint gen_segments (segs : list bytes) : res (option (list bytes)) :=
  match segs with
  | [] => Ok (Some [])
  | s :: r =>
    if (length s <? 4)%nat then gen_segments r
    else e <- gen_vals (split1 32 s) ;;
         match e with
         | None => Ok None
         | Some b => l <- gen_segments r ;; Ok (match l with Some l => Some (b :: l) | None => None end)
         end
  end.

Section Trim.
  (** strings.TrimSpace: arbitrary here, only the comments go through it. *)
  Variable trim : bytes -> bytes.
  (** main.go:259-303: one line; [None] for a comment line. *)
  Definition gen_line (line : bytes) : res (option (option test)) :=
    match line with
    | [] => Panic
    | c :: _ =>
      if c =? 35 then Ok (Some None)
      else
        let parts := split1 35 line in
        match nth_error parts 1, nth_error parts 0 with
        | Some p1, Some p0 =>
          l <- gen_segments (split_div p0) ;;
          Ok (match l with Some l => Some (Some {| t_input := concat l; t_expected := l; t_comment := trim p1 |}) | None => None end)
        | _, _ => Panic
        end
    end.
  Fixpoint gen_lines (ls : list bytes) : res (option (list test)) :=
    match ls with
    | [] => Ok (Some [])
    | s :: r =>
      t <- gen_line s ;;
      match t with
      | None => Ok None
      | Some t => l <- gen_lines r ;; Ok (match l with Some l => Some (match t with Some t => t :: l | None => l end) | None => None end)
      end
    end.
  (** main.go:255-304. *)
  Definition generateTests (file : bytes) : res (option (list test)) := gen_lines (scan_lines [] file).
End Trim.

(** * writeTests *)
Fixpoint commas (l : list bytes) : bytes := match l with [] => [] | [x] => x | x :: r => x ++ str ", " ++ commas r end.
(** fmt: %#v of a []byte, of the elements of a [][]byte, and of a [][]byte.  A slice to which nothing was appended is nil. *)
Definition sharp_bytes (b : bytes) : bytes := match b with [] => str "[]byte(nil)" | _ => str "[]byte{" ++ commas (map fmt_x b) ++ str "}" end.
Definition sharp_inner (b : bytes) : bytes := match b with [] => str "[]uint8(nil)" | _ => str "[]uint8{" ++ commas (map fmt_x b) ++ str "}" end.
Definition sharp_slices (l : list bytes) : bytes := match l with [] => str "[][]uint8(nil)" | _ => str "[][]uint8{" ++ commas (map sharp_inner l) ++ str "}" end.
(** bytes.ReplaceAll: occurrences from left to right, not overlapping; [skip] bytes belong to the last one. *)
Fixpoint starts (p s : bytes) : bool :=
  match p, s with
  | [], _ => true
  | a :: p, b :: s => (a =? b) && starts p s
  | _ :: _, [] => false
  end.
Fixpoint replace (old new : bytes) (skip : nat) (s : bytes) : bytes :=
  match s with
  | [] => []
  | c :: r => match skip with
      | S k => replace old new k r
      | O => if starts old s then new ++ replace old new (pred (length old)) r else c :: replace old new 0 r
      end
  end.
Definition ReplaceAll (s old new : bytes) : bytes := replace old new 0 s.

Section Write.
  (** strconv.Quote, which %#v uses for a string. *)
  Variable quote : bytes -> bytes.
  (** main.go:366-371. *)
  Definition write_test (t : test) : bytes :=
    ln (str "{")
    ++ [9] ++ str "input: " ++ sharp_bytes (t_input t) ++ ln (str ",")
    ++ [9] ++ str "expected: " ++ sharp_slices (t_expected t) ++ ln (str ",")
    ++ [9] ++ str "comment: " ++ quote (t_comment t) ++ ln (str ",")
    ++ ln (str "},").
  (** main.go:349-363. *)
  Definition test_header (pkg url : bytes) (n : nat) : bytes :=
    ln (str "package " ++ pkg ++ str "_test") ++ ln []
    ++ ln ([9] ++ str "// generated by github.com/clipperhouse/uax29/v2")
    ++ ln ([9] ++ str "// from " ++ url)
    ++ ln []
    ++ ln (str "type unicodeTest struct {") ++ ln ([9] ++ str "input    []byte") ++ ln ([9] ++ str "expected [][]byte") ++ ln ([9] ++ str "comment  string") ++ ln (str "}")
    ++ ln []
    ++ ln (str "var unicodeTests = [" ++ dec (N.of_nat n) ++ str "]unicodeTest {").
  (** main.go:365-374. *)
  Definition test_body (tests : list test) : bytes := concat (map write_test tests) ++ ln (str "}") ++ ln [].
  (** main.go:346-378: what is given to format.Source. *)
  Definition writeTests (pkg url : bytes) (tests : list test) : bytes :=
    let byts := test_header pkg url (length tests) ++ test_body tests in
    ReplaceAll (ReplaceAll byts (str "[]uint8{0x") (str "{0x")) (str "[]uint8{") (str "[]byte{").
End Write.
