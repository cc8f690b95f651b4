(** Specification: reading a Go source file that declares constants and arrays.  Only the part of the language is read that the generated files need;
    anything else makes the reader give up, so that a file it accepts means in Go what the reader says. *)
From Coq Require Import String.
From Verif Require Import Base SpecData.
Local Open Scope N_scope.

(** * Tokens.  Words are identifiers, keywords and numbers; any other character is a mark of its own.  Comments run to the end of the line. *)
Inductive tok := W (w : bytes) | M (c : N).

Definition wordy (c : N) : bool := ((0x30 <=? c) && (c <=? 0x39)) || ((0x41 <=? c) && (c <=? 0x5A)) || (c =? 0x5F) || ((0x61 <=? c) && (c <=? 0x7A)).
Definition blank (c : N) : bool := (c =? 9) || (c =? 13) || (c =? 32).
Definition same (a b : bytes) : bool := if list_eq_dec N.eq_dec a b then true else false.
(** A line that ends in an identifier, a number, return, or a closing bracket ends a statement. *)
Definition keywords : list bytes := map str ["case"; "chan"; "const"; "default"; "defer"; "else"; "for"; "func"; "go"; "goto"; "if"; "import";
  "interface"; "map"; "package"; "range"; "select"; "struct"; "switch"; "type"; "var"]%string.
Definition ends_word (w : bytes) : bool := negb (existsb (same w) keywords).
Definition ends_mark (c : N) : bool := (c =? 0x29) || (c =? 0x5D) || (c =? 0x7D).
Definition semicolon : tok := M 0x3B.

(** [word]: the word being read, backwards.  [ends]: the last token of the line ends a statement.  [note]: in a comment. *)
Definition flush (word : bytes) : list tok := match word with [] => [] | _ => [W (rev word)] end.
Definition ended (word : bytes) (ends : bool) : bool := match word with [] => ends | _ => ends_word (rev word) end.
Definition newline (ends : bool) : list tok := if ends then [semicolon] else [].
Fixpoint lex (word : bytes) (ends note : bool) (s : bytes) : list tok :=
  match s with
  | [] => flush word ++ newline (ended word ends)
  | c :: r =>
    if c =? 10 then flush word ++ newline (ended word ends) ++ lex [] false false r
    else if note then lex [] ends true r
    else if wordy c then lex (c :: word) ends false r
    else if blank c then flush word ++ lex [] (ended word ends) false r
    else if (c =? 0x2F) && match r with d :: _ => d =? 0x2F | [] => false end then flush word ++ lex [] (ended word ends) true r
    else flush word ++ M c :: lex [] (ends_mark c) false r
  end.
Definition tokens (s : bytes) : list tok := lex [] false false s.
(** Quotation marks and other comments are not read. *)
Fixpoint plain (l : list tok) : bool :=
  match l with
  | [] => true
  | M c :: r => negb ((c =? 0x22) || (c =? 0x27) || (c =? 0x60)) && negb ((c =? 0x2F) && match r with M d :: _ => d =? 0x2A | _ => false end) && plain r
  | W _ :: r => plain r
  end.

(** * Layout: the text without blanks and without empty lines.  gofmt only changes layout. *)
Fixpoint dense (start : bool) (s : bytes) : bytes :=
  match s with
  | [] => []
  | c :: r => if blank c then dense start r else if c =? 10 then (if start then [] else [10]) ++ dense true r else c :: dense false r
  end.
Definition same_but_layout (a b : bytes) : Prop := tokens a = tokens b /\ dense true a = dense true b.

(** * Numbers *)
Definition digit_of (c : N) : option N :=
  if (0x30 <=? c) && (c <=? 0x39) then Some (c - 0x30) else if (0x61 <=? c) && (c <=? 0x66) then Some (c - 0x57) else if (0x41 <=? c) && (c <=? 0x46) then Some (c - 0x37) else None.
Fixpoint digits (base acc : N) (s : bytes) : option N :=
  match s with
  | [] => Some acc
  | c :: r => match digit_of c with Some d => if d <? base then digits base (acc * base + d) r else None | None => None end
  end.
Definition number (w : bytes) : option N :=
  match w with
  | 0x30 :: 0x78 :: c :: r => digits 16 0 (c :: r)
  | [0x30] => Some 0
  | 0x30 :: _ => None
  | [] => None
  | _ => digits 10 0 w
  end.
(** An identifier is not a number and not a keyword. *)
Definition identifier (w : bytes) : bool := match w with c :: _ => negb ((0x30 <=? c) && (c <=? 0x39)) | [] => false end && forallb wordy w && ends_word w && negb (same w (str "_")).

(** * Declarations *)
(** The constants of [const ( ... )] after the first; each has the expression of the first, 1 << iota. *)
Fixpoint consts (i : N) (l : list tok) : option (list (bytes * N) * list tok) :=
  match l with
  | M 0x29 :: M 0x3B :: r => Some ([], r)
  | W n :: M 0x3B :: r => if identifier n then match consts (i + 1) r with Some (cs, r') => Some ((n, 2 ^ i) :: cs, r') | None => None end else None
  | _ => None
  end.
(** key: value, key: value, ... } *)
Fixpoint elements (l : list tok) : option (list (N * N) * list tok) :=
  match l with
  | M 0x7D :: M 0x3B :: r => Some ([], r)
  | W k :: M 0x3A :: W v :: M 0x2C :: r =>
    match number k, number v, elements r with Some k, Some v, Some (es, r') => Some ((k, v) :: es, r') | _, _, _ => None end
  | _ => None
  end.
(** From the opening brace of a function to the end of its body. *)
Fixpoint body (depth : nat) (l : list tok) : option (list tok) :=
  match l with
  | M 0x7B :: r => body (S depth) r
  | M 0x7D :: r => match depth with O => None | 1%nat => match r with M 0x3B :: r' => Some r' | _ => None end | S d => body d r end
  | _ :: r => body depth r
  | [] => None
  end.

Inductive decl :=
  | Package (name : bytes)
  | Type_ (name underlying : bytes)
  | Const (type : bytes) (values : list (bytes * N))
  | Func (name : bytes)
  | Var (name : bytes) (len : N) (type : bytes) (elements : list (N * N)).

Definition is_word (w : bytes) (s : string) : bool := same w (str s).
(** One declaration. *)
Definition declaration (l : list tok) : option (decl * list tok) :=
  match l with
  | W k :: W n :: M 0x3B :: r => if is_word k "package" && identifier n then Some (Package n, r) else None
  | W k :: W n :: W u :: M 0x3B :: r => if is_word k "type" && identifier n && identifier u then Some (Type_ n u, r) else None
  | W k :: M 0x28 :: W n :: W t :: M 0x3D :: W one :: M 0x3C :: M 0x3C :: W i :: M 0x3B :: r =>
    if is_word k "const" && identifier n && identifier t && is_word one "1" && is_word i "iota"
    then match consts 1 r with Some (cs, r') => Some (Const t ((n, 1) :: cs), r') | None => None end else None
  | W k :: W n :: M 0x3D :: M 0x5B :: W len :: M 0x5D :: W t :: M 0x7B :: r =>
    if is_word k "var" && identifier n && identifier t
    then match number len, elements r with Some len, Some (es, r') => Some (Var n len t es, r') | _, _ => None end else None
  | W k :: W n :: r => if is_word k "func" && identifier n then match body 0 r with Some r' => Some (Func n, r') | None => None end else None
  | _ => None
  end.
Fixpoint declarations (fuel : nat) (l : list tok) : option (list decl) :=
  match l, fuel with
  | [], _ => Some []
  | _, O => None
  | _, S f => match declaration l with Some (d, r) => match declarations f r with Some ds => Some (d :: ds) | None => None end | None => None end
  end.

(** * Checks of the compiler *)
Definition width_of (u : bytes) : option N :=
  if is_word u "uint8" then Some 8 else if is_word u "uint16" then Some 16 else if is_word u "uint32" then Some 32 else if is_word u "uint64" then Some 64 else None.
Fixpoint type_of (ds : list decl) (t : bytes) : option N :=
  match ds with [] => None | Type_ n u :: r => if same n t then width_of u else type_of r t | _ :: r => type_of r t end.
Definition fits (w : option N) (v : N) : bool := match w with Some w => v <? 2 ^ w | None => false end.
(** Keys in increasing order are distinct. *)
Fixpoint increasing (lo : N) (es : list (N * N)) : bool := match es with [] => true | (k, _) :: r => (lo <=? k) && increasing (k + 1) r end.
Definition sound (ds : list decl) (d : decl) : bool :=
  match d with
  | Package _ | Type_ _ _ | Func _ => true
  | Const t vs => forallb (fun e => fits (type_of ds t) (snd e)) vs
  | Var _ len t es => increasing 0 es && forallb (fun e => (fst e <? len) && fits (type_of ds t) (snd e)) es
  end.
Definition names_of (d : decl) : list bytes := match d with Package _ => [] | Type_ n _ | Func n | Var n _ _ _ => [n] | Const _ vs => map fst vs end.
(** Names that must keep their meaning in the rest of the file. *)
Definition predeclared : list bytes := map str ["iota"; "uint8"; "uint16"; "uint32"; "uint64"]%string.
Fixpoint no_repeats (l : list bytes) : bool := match l with [] => true | x :: r => negb (existsb (same x) r) && no_repeats r end.

(** The declarations of a file the compiler accepts, as far as they are read here. *)
Definition read_go (s : bytes) : option (list decl) :=
  let l := tokens s in
  if plain l then
    match declarations (length l) l with
    | Some ds => if forallb (sound ds) ds && no_repeats (predeclared ++ concat (map names_of ds)) then Some ds else None
    | None => None
    end
  else None.

(** * What a file declares *)
Definition package_is (ds : list decl) (n : bytes) : Prop := In (Package n) ds.
Definition constant_is (ds : list decl) (n : bytes) (v : N) : Prop := exists t vs, In (Const t vs) ds /\ In (n, v) vs.
(** Element i of an array: the value with key i, or zero. *)
Definition element (es : list (N * N)) (i v : N) : Prop := In (i, v) es \/ (v = 0 /\ forall x, ~ In (i, x) es).
Definition array_is (ds : list decl) (n : bytes) (len : N) (f : N -> N) : Prop :=
  exists t es, In (Var n len t es) ds /\ forall i, i < len -> element es i (f i).
