(** Specification: reading Go source text.  A lexer with Go's rule for semicolons and a parser for the part of the language
    that this repository uses; anything else makes the parser give up ([None]). *)
From Coq Require Import String Ascii List ZArith Bool.
Import ListNotations.
Local Open Scope string_scope.
Local Open Scope list_scope.

(** * Syntax trees *)
Inductive ty :=
| TyName (x : string) (args : list ty)     (* int, T, property, Iterator[T]; bufio.SplitFunc *)
| TySlice (t : ty)                         (* []byte *)
| TyPtr (t : ty)                           (* *Iterator[T] *)
| TyFunc.                                  (* func(T, bool) (int, T, error) *)

Inductive expr :=
| EId (x : string)
| EInt (z : Z)                             (* also a character *)
| EStr (s : string)
| ETy (t : ty)                             (* a type as an argument: splitFunc[[]byte] *)
| EBin (op : string) (a b : expr)
| EUn (op : string) (a : expr)             (* ! - & * *)
| ECall (f : expr) (args : list expr)
| ESel (e : expr) (x : string)
| EIndex (e i : expr)                      (* also splitFunc[string] *)
| ESlice (e : expr) (lo hi : option expr)
| EComp (name : string) (fields : list (string * expr))    (* Iterator[T]{ x: e } *)
| EFn (ps : list (string * ty)) (rs : list (string * ty)) (es : list expr).   (* func(ps) (rs) { return es } *)

Inductive stmt :=
| SVar (xs : list string) (t : ty) (init : option expr)
| SDefine (xs : list string) (es : list expr)              (* := *)
| SAssign (ls : list expr) (es : list expr)                (* = *)
| SOp (l : expr) (op : string) (e : expr)                  (* += and so on; ++ and -- *)
| SExpr (e : expr)
| SIf (init : option stmt) (c : expr) (th el : list stmt)
| SFor (label : string) (init : option stmt) (c : option expr) (post : option stmt) (body : list stmt)
| SRange (label x : string) (e : expr) (body : list stmt)  (* for _, x := range e *)
| SSwitch (cases : list (list expr * list stmt)) (tag : option expr) (default : list stmt)
| STypeSwitch (x : string) (e : expr) (cases : list (ty * list stmt)) (default : list stmt)
| SBreak (label : string)
| SContinue (label : string)
| SReturn (es : list expr).

Record fundecl := { fd_tparams : list string; fd_recv : option (string * ty); fd_name : string;
  fd_params : list (string * ty); fd_results : list (string * ty); fd_body : list stmt }.
Inductive decl :=
| DFun (f : fundecl)
| DConst (group : list (string * option ty * list expr))  (* an empty list repeats the line before *)
| DVar (x : string) (t : option ty) (e : expr)
| DFunVar (x : string) (f : fundecl)                      (* var x T = func(...) { ... } *)
| DType (x : string) (t : ty)
| DStruct (x : string) (fields : list (string * ty)).

(** * Tokens *)
Inductive tok := TId (s : string) | TInt (z : Z) | TStr (s : string) | TOp (s : string).

Definition nl : ascii := ascii_of_nat 10.
Definition code (c : ascii) : nat := nat_of_ascii c.
Definition between (lo hi : nat) (c : ascii) : bool := Nat.leb lo (code c) && Nat.leb (code c) hi.
Definition digit (c : ascii) : bool := between 48 57 c.
Definition letter (c : ascii) : bool := between 65 90 c || between 97 122 c || Nat.eqb (code c) 95.
Definition mem (s : string) (l : list string) : bool := existsb (String.eqb s) l.

(** Keywords do not end a statement, except these four, which are not in the list: break continue fallthrough return. *)
Definition keywords : list string := ["case"; "chan"; "const"; "default"; "defer"; "else"; "for"; "func"; "go"; "goto"; "if"; "import";
  "interface"; "map"; "package"; "range"; "select"; "struct"; "switch"; "type"; "var"].
Definition operators : list string := ["<<="; ">>="; "&^="; "..."; ":="; "=="; "!="; "<="; ">="; "&&"; "||"; "<<"; ">>"; "+="; "-="; "*="; "/="; "%="; "|="; "&="; "^=";
  "++"; "--"; "&^"; "<-"; "+"; "-"; "*"; "/"; "%"; "&"; "|"; "^"; "<"; ">"; "="; "!"; "("; ")"; "["; "]"; "{"; "}"; ","; ";"; "."; ":"; "~"].
Definition ends (t : tok) : bool :=
  match t with
  | TId s => negb (mem s keywords)
  | TInt _ | TStr _ => true
  | TOp s => mem s [")"; "]"; "}"; "++"; "--"]
  end.

Fixpoint span (p : ascii -> bool) (s : string) : string * string :=
  match s with
  | String c r => if p c then let (a, b) := span p r in (String c a, b) else ("", s)
  | EmptyString => ("", "")
  end.
Fixpoint drop (n : nat) (s : string) : string := match n, s with S m, String _ r => drop m r | _, _ => s end.

Definition digit_val (c : ascii) : Z :=
  Z.of_nat (if between 48 57 c then code c - 48 else if between 97 102 c then code c - 87 else if between 65 70 c then code c - 55 else 99).
Fixpoint digits (base : Z) (acc : Z) (s : string) : option Z :=
  match s with
  | EmptyString => Some acc
  | String c r => if (digit_val c <? base)%Z then digits base (acc * base + digit_val c) r else None
  end.
Definition number (s : string) : option Z :=
  match s with
  | String z (String x r) =>
    if (Nat.eqb (code z) 48) && (Nat.eqb (code x) 120 || Nat.eqb (code x) 88) then match r with EmptyString => None | _ => digits 16 0 r end
    else if Nat.eqb (code z) 48 then None else digits 10 0 s
  | _ => digits 10 0 s
  end.

(** A string without escapes, up to the quotation mark. *)
Fixpoint quoted (s : string) : option (string * string) :=
  match s with
  | EmptyString => None
  | String c r => if Nat.eqb (code c) 34 then Some ("", r) else if Nat.eqb (code c) 92 || Nat.eqb (code c) 10 then None
      else match quoted r with Some (a, b) => Some (String c a, b) | None => None end
  end.
(** A character: 'x' or '\\'; after the first quotation mark. *)
Definition character (s : string) : option (Z * string) :=
  match s with
  | String c (String q r) =>
    if Nat.eqb (code c) 92 then match r with String q2 r2 => if Nat.eqb (code q) 92 && Nat.eqb (code q2) 39 then Some (92%Z, r2) else None | _ => None end
    else if Nat.eqb (code q) 39 && Nat.leb (code c) 126 then Some (Z.of_nat (code c), r) else None
  | _ => None
  end.
(** A general comment acts like a newline if it contains one. *)
Fixpoint comment (line : bool) (s : string) : option (bool * string) :=
  match s with
  | String c r =>
    if Nat.eqb (code c) 42 && match r with String d _ => Nat.eqb (code d) 47 | _ => false end then Some (line, drop 1 r)
    else comment (line || Nat.eqb (code c) 10) r
  | EmptyString => None
  end.

Definition semi (last : option tok) : list tok := match last with Some t => if ends t then [TOp ";"] else [] | None => [] end.
(** [last]: the last token of the line. *)
Fixpoint lex (fuel : nat) (last : option tok) (s : string) : option (list tok) :=
  match fuel with
  | O => None
  | S fuel' =>
    let token (t : tok) (r : string) := match lex fuel' (Some t) r with Some l => Some (t :: l) | None => None end in
    let newline (r : string) := match lex fuel' None r with Some l => Some (semi last ++ l) | None => None end in
    match s with
    | EmptyString => Some (semi last)
    | String c r =>
      if Nat.eqb (code c) 10 then newline r
      else if Nat.eqb (code c) 32 || Nat.eqb (code c) 9 || Nat.eqb (code c) 13 then lex fuel' last r
      else if prefix "//" s then lex fuel' last (snd (span (fun d => negb (Nat.eqb (code d) 10)) s))
      else if prefix "/*" s then
        match comment false (drop 2 s) with Some (true, r') => newline r' | Some (false, r') => lex fuel' last r' | None => None end
      else if letter c then let (w, r') := span (fun d => letter d || digit d) s in token (TId w) r'
      else if digit c then let (w, r') := span (fun d => letter d || digit d) s in match number w with Some z => token (TInt z) r' | None => None end
      else if Nat.eqb (code c) 34 then match quoted r with Some (a, r') => token (TStr a) r' | None => None end
      else if Nat.eqb (code c) 39 then match character r with Some (z, r') => token (TInt z) r' | None => None end
      else match find (fun o => prefix o s) operators with Some o => token (TOp o) (drop (String.length o) s) | None => None end
    end
  end.

(** * Parser.  Every function takes fuel and the tokens, and returns what it has read and the rest. *)
Definition P (A : Type) := list tok -> option (A * list tok).
Definition ret {A} (a : A) : P A := fun ts => Some (a, ts).
Definition fail {A} : P A := fun _ => None.
Definition pbind {A B} (m : P A) (k : A -> P B) : P B := fun ts => match m ts with Some (a, r) => k a r | None => None end.
Notation "x <~ m ;; k" := (pbind m (fun x => k)) (at level 61, m at next level, right associativity).
Notation "' p <~ m ;; k" := (pbind m (fun p => k)) (at level 61, p pattern, m at next level, right associativity).
Definition peek (o : string) (ts : list tok) : bool := match ts with TOp s :: _ => String.eqb s o | _ => false end.
Definition peek_word (w : string) (ts : list tok) : bool := match ts with TId s :: _ => String.eqb s w | _ => false end.
Definition look {A} (f : list tok -> P A) : P A := fun ts => f ts ts.
Definition op (o : string) : P unit := fun ts => if peek o ts then Some (tt, tl ts) else None.
Definition word (w : string) : P unit := fun ts => if peek_word w ts then Some (tt, tl ts) else None.
Definition ident : P string := fun ts => match ts with TId s :: r => if mem s keywords then None else Some (s, r) | _ => None end.

(** Skip to the bracket that closes an open one (constraints of type parameters). *)
Fixpoint skip_bracket (depth : nat) (ts : list tok) : option (unit * list tok) :=
  match ts with
  | [] => None
  | t :: r =>
    match t with
    | TOp "[" => skip_bracket (S depth) r
    | TOp "]" => match depth with O => Some (tt, r) | S d => skip_bracket d r end
    | _ => skip_bracket depth r
    end
  end.

Fixpoint ptype (n : nat) : P ty :=
  match n with
  | O => fail
  | S n =>
    look (fun ts =>
      if peek "[" ts then _ <~ op "[" ;; _ <~ op "]" ;; t <~ ptype n ;; ret (TySlice t)
      else if peek "*" ts then _ <~ op "*" ;; t <~ ptype n ;; ret (TyPtr t)
      else if peek_word "func" ts then _ <~ word "func" ;; _ <~ op "(" ;; _ <~ ptypes n ;; _ <~ presults n ;; ret TyFunc
      else
        x <~ ident ;;
        look (fun ts =>
          if peek "." ts then _ <~ op "." ;; y <~ ident ;; ret (TyName (x ++ "." ++ y)%string [])
          else if peek "[" ts then _ <~ op "[" ;; t <~ ptype n ;; _ <~ op "]" ;; ret (TyName x [t])
          else ret (TyName x [])))
  end
(** types up to a closing parenthesis *)
with ptypes (n : nat) : P unit :=
  match n with
  | O => fail
  | S n => look (fun ts => if peek ")" ts then op ")" else _ <~ ptype n ;; look (fun ts => if peek "," ts then _ <~ op "," ;; ptypes n else op ")"))
  end
with presults (n : nat) : P unit :=
  match n with
  | O => fail
  | S n => look (fun ts => if peek "(" ts then _ <~ op "(" ;; ptypes n
                           else match ts with TId _ :: _ => _ <~ ptype n ;; ret tt | _ => ret tt end)
  end.

(** names with types, up to a closing parenthesis; a result may have no name *)
Fixpoint pparams (n : nat) : P (list (string * ty)) :=
  match n with
  | O => fail
  | S n => look (fun ts => if peek ")" ts then _ <~ op ")" ;; ret []
      else
        q <~ (fun ts => match (x <~ ident ;; t <~ ptype n ;; ret (x, t)) ts with
                        | Some r => Some r
                        | None => (t <~ ptype n ;; ret ("", t)) ts
                        end) ;;
        look (fun ts => if peek "," ts then _ <~ op "," ;; l <~ pparams n ;; ret (q :: l) else _ <~ op ")" ;; ret [q]))
  end.
Definition presult (n : nat) : P (list (string * ty)) :=
  look (fun ts => if peek "(" ts then _ <~ op "(" ;; pparams n else if peek "{" ts then ret [] else t <~ ptype n ;; ret [("", t)]).
Definition precedence (o : string) : nat :=
  if mem o ["||"] then 1 else if mem o ["&&"] then 2 else if mem o ["=="; "!="; "<"; "<="; ">"; ">="] then 3
  else if mem o ["+"; "-"; "|"; "^"] then 4 else if mem o ["*"; "/"; "%"; "<<"; ">>"; "&"; "&^"] then 5 else 0.

(** The name in front of a composite literal. *)
Definition type_name (e : expr) : option string := match e with EId x => Some x | EIndex (EId x) _ => Some x | _ => None end.

(** [lit]: a composite literal is allowed here (not in the head of if, for and switch). *)
Fixpoint pexpr (n : nat) (lit : bool) (p : nat) : P expr :=
  match n with
  | O => fail
  | S n => a <~ punary n lit ;; pbinary n lit p a
  end
with pbinary (n : nat) (lit : bool) (p : nat) (a : expr) : P expr :=
  match n with
  | O => fail
  | S n =>
    look (fun ts =>
      match ts with
      | TOp o :: _ => if Nat.leb p (precedence o) && Nat.ltb 0 (precedence o) then _ <~ op o ;; b <~ pexpr n lit (S (precedence o)) ;; pbinary n lit p (EBin o a b) else ret a
      | _ => ret a
      end)
  end
with punary (n : nat) (lit : bool) : P expr :=
  match n with
  | O => fail
  | S n =>
    look (fun ts =>
      match ts with
      | TOp o :: _ => if mem o ["!"; "-"; "&"; "*"] then _ <~ op o ;; a <~ punary n lit ;; ret (EUn o a)
                      else if String.eqb o "(" then _ <~ op "(" ;; a <~ pexpr n true 1 ;; _ <~ op ")" ;; ppostfix n lit a
                      else fail
      | TInt z :: r => fun _ => Some (EInt z, r)
      | TStr s :: r => fun _ => Some (EStr s, r)
      | TId "func" :: TOp "(" :: r => fun _ =>
        (ps <~ pparams n ;; rs <~ presult n ;; _ <~ op "{" ;; _ <~ word "return" ;; es <~ plist n ;; _ <~ op ";" ;; _ <~ op "}" ;; ret (EFn ps rs es)) r
      | _ => x <~ ident ;; ppostfix n lit (EId x)
      end)
  end
with ppostfix (n : nat) (lit : bool) (a : expr) : P expr :=
  match n with
  | O => fail
  | S n =>
    look (fun ts =>
      match ts with
      | TOp "(" :: _ => _ <~ op "(" ;; args <~ pargs n ;; ppostfix n lit (ECall a args)
      | TOp "." :: TOp "(" :: _ => ret a   (* a type switch *)
      | TOp "." :: _ => _ <~ op "." ;; x <~ ident ;; ppostfix n lit (ESel a x)
      | TOp "[" :: TOp "[" :: _ => _ <~ op "[" ;; t <~ ptype n ;; _ <~ op "]" ;; ppostfix n lit (EIndex a (ETy t))
      | TOp "[" :: TOp ":" :: _ =>
        _ <~ op "[" ;; _ <~ op ":" ;; look (fun ts => if peek "]" ts then _ <~ op "]" ;; ppostfix n lit (ESlice a None None)
                                                 else h <~ pexpr n true 1 ;; _ <~ op "]" ;; ppostfix n lit (ESlice a None (Some h)))
      | TOp "[" :: _ =>
        _ <~ op "[" ;; i <~ pexpr n true 1 ;;
        look (fun ts =>
          if peek ":" ts then _ <~ op ":" ;; look (fun ts => if peek "]" ts then _ <~ op "]" ;; ppostfix n lit (ESlice a (Some i) None)
                                                       else h <~ pexpr n true 1 ;; _ <~ op "]" ;; ppostfix n lit (ESlice a (Some i) (Some h)))
          else _ <~ op "]" ;; ppostfix n lit (EIndex a i))
      | TOp "{" :: _ =>
        if lit then match type_name a with Some x => _ <~ op "{" ;; fs <~ pfields n ;; ppostfix n lit (EComp x fs) | None => fail end else ret a
      | _ => ret a
      end)
  end
(** one expression or more *)
with plist (n : nat) : P (list expr) :=
  match n with
  | O => fail
  | S n => a <~ pexpr n true 1 ;; look (fun ts => if peek "," ts then _ <~ op "," ;; l <~ plist n ;; ret (a :: l) else ret [a])
  end
with pargs (n : nat) : P (list expr) :=
  match n with
  | O => fail
  | S n => look (fun ts => if peek ")" ts then _ <~ op ")" ;; ret []
      else a <~ pexpr n true 1 ;; look (fun ts => if peek "," ts then _ <~ op "," ;; l <~ pargs n ;; ret (a :: l) else _ <~ op ")" ;; ret [a]))
  end
with pfields (n : nat) : P (list (string * expr)) :=
  match n with
  | O => fail
  | S n => look (fun ts => if peek "}" ts then _ <~ op "}" ;; ret []
      else x <~ ident ;; _ <~ op ":" ;; a <~ pexpr n true 1 ;;
        look (fun ts => if peek "," ts then _ <~ op "," ;; l <~ pfields n ;; ret ((x, a) :: l) else _ <~ op "}" ;; ret [(x, a)]))
  end.

Fixpoint pexprs (n : nat) (lit : bool) : P (list expr) :=
  match n with
  | O => fail
  | S n => a <~ pexpr n lit 1 ;; look (fun ts => if peek "," ts then _ <~ op "," ;; l <~ pexprs n lit ;; ret (a :: l) else ret [a])
  end.
Fixpoint names (es : list expr) : option (list string) :=
  match es with
  | [] => Some []
  | EId x :: r => match names r with Some l => Some (x :: l) | None => None end
  | _ => None
  end.
(** The operator of an assignment: "+=" gives "+". *)
Definition assign_op (o : string) : option string :=
  match find (fun p => String.eqb (p ++ "=") o) ["+"; "-"; "*"; "/"; "%"; "|"; "&"; "<<"; ">>"] with Some p => Some p | None => None end.
Definition psimple (n : nat) (lit : bool) : P stmt :=
  es <~ pexprs n lit ;;
  look (fun ts =>
    match ts, es with
    | TOp ":=" :: _, _ => _ <~ op ":=" ;; match names es with Some xs => rs <~ pexprs n lit ;; ret (SDefine xs rs) | None => fail end
    | TOp "=" :: _, _ => _ <~ op "=" ;; rs <~ pexprs n lit ;; ret (SAssign es rs)
    | TOp "++" :: _, [e] => _ <~ op "++" ;; ret (SOp e "+" (EInt 1))
    | TOp "--" :: _, [e] => _ <~ op "--" ;; ret (SOp e "-" (EInt 1))
    | TOp o :: _, [e] => match assign_op o with Some p => _ <~ op o ;; r <~ pexpr n lit 1 ;; ret (SOp e p r) | None => ret (SExpr e) end
    | _, [e] => ret (SExpr e)
    | _, _ => fail
    end).

Definition nonempty (es : list string) : bool := match es with [] => false | _ => true end.
Fixpoint pidents (n : nat) : P (list string) :=
  match n with
  | O => fail
  | S n => x <~ ident ;; look (fun ts => if peek "," ts then _ <~ op "," ;; l <~ pidents n ;; ret (x :: l) else ret [x])
  end.

Fixpoint pstmt (n : nat) (label : string) : P stmt :=
  match n with
  | O => fail
  | S n =>
    look (fun ts =>
      match ts with
      | TId "var" :: _ => _ <~ word "var" ;; xs <~ pidents n ;; t <~ ptype n ;;
          look (fun ts => if peek "=" ts then _ <~ op "=" ;; e <~ pexpr n true 1 ;; ret (SVar xs t (Some e)) else ret (SVar xs t None))
      | TId "return" :: _ => _ <~ word "return" ;; look (fun ts => if peek ";" ts || peek "}" ts then ret (SReturn []) else es <~ pexprs n true ;; ret (SReturn es))
      | TId "break" :: _ => _ <~ word "break" ;; look (fun ts => match ts with TId l :: _ => _ <~ word l ;; ret (SBreak l) | _ => ret (SBreak "") end)
      | TId "continue" :: _ => _ <~ word "continue" ;; look (fun ts => match ts with TId l :: _ => _ <~ word l ;; ret (SContinue l) | _ => ret (SContinue "") end)
      | TId "if" :: _ => pif n
      | TId "for" :: _ =>
        _ <~ word "for" ;;
        look (fun ts =>
          match ts with
          | TOp "{" :: _ => b <~ pblock n ;; ret (SFor label None None None b)
          | TId "_" :: TOp "," :: TId x :: TOp ":=" :: TId "range" :: r =>
            fun _ => (e <~ pexpr n false 1 ;; b <~ pblock n ;; ret (SRange label x e b)) r
          | _ =>
            s <~ psimple n false ;;
            look (fun ts =>
              if peek ";" ts then _ <~ op ";" ;; c <~ pexpr n false 1 ;; _ <~ op ";" ;; p <~ psimple n false ;; b <~ pblock n ;; ret (SFor label (Some s) (Some c) (Some p) b)
              else match s with SExpr c => b <~ pblock n ;; ret (SFor label None (Some c) None b) | _ => fail end)
          end)
      | TId "switch" :: TOp "{" :: _ => _ <~ word "switch" ;; _ <~ op "{" ;; ' (cs, d) <~ pcases n ;; ret (SSwitch cs None d)
      | TId "switch" :: TId x :: TOp ":=" :: r =>
        fun _ => (e <~ pexpr n false 1 ;; _ <~ op "." ;; _ <~ op "(" ;; _ <~ word "type" ;; _ <~ op ")" ;; _ <~ op "{" ;; ' (cs, d) <~ ptycases n ;; ret (STypeSwitch x e cs d)) r
      | TId "switch" :: _ => _ <~ word "switch" ;; t <~ pexpr n false 1 ;; _ <~ op "{" ;; ' (cs, d) <~ pcases n ;; ret (SSwitch cs (Some t) d)
      | TId x :: TOp ":" :: _ => if nonempty [label] && String.eqb label "" then _ <~ ident ;; _ <~ op ":" ;; pstmt n x else fail
      | _ => psimple n true
      end)
  end
with pif (n : nat) : P stmt :=
  match n with
  | O => fail
  | S n =>
    _ <~ word "if" ;; s <~ psimple n false ;;
    look (fun ts =>
      if peek ";" ts then _ <~ op ";" ;; c <~ pexpr n false 1 ;; b <~ pblock n ;; el <~ pelse n ;; ret (SIf (Some s) c b el)
      else match s with SExpr c => b <~ pblock n ;; el <~ pelse n ;; ret (SIf None c b el) | _ => fail end)
  end
with pelse (n : nat) : P (list stmt) :=
  match n with
  | O => fail
  | S n => look (fun ts =>
      if peek_word "else" ts then _ <~ word "else" ;; look (fun ts => if peek_word "if" ts then s <~ pif n ;; ret [s] else pblock n)
      else ret [])
  end
with pblock (n : nat) : P (list stmt) :=
  match n with
  | O => fail
  | S n => _ <~ op "{" ;; b <~ pstmts n ;; _ <~ op "}" ;; ret b
  end
(** statements up to "}", "case" or "default" *)
with pstmts (n : nat) : P (list stmt) :=
  match n with
  | O => fail
  | S n => look (fun ts =>
      if peek "}" ts || peek_word "case" ts || peek_word "default" ts then ret []
      else if peek ";" ts then _ <~ op ";" ;; pstmts n
      else s <~ pstmt n "" ;; look (fun ts => if peek ";" ts then _ <~ op ";" ;; l <~ pstmts n ;; ret (s :: l) else if peek "}" ts then ret [s] else fail))
  end
with pcases (n : nat) : P (list (list expr * list stmt) * list stmt) :=
  match n with
  | O => fail
  | S n => look (fun ts =>
      if peek "}" ts then _ <~ op "}" ;; ret ([], [])
      else if peek_word "case" ts then
        _ <~ word "case" ;; es <~ pexprs n true ;; _ <~ op ":" ;; b <~ pstmts n ;; ' (cs, d) <~ pcases n ;; ret ((es, b) :: cs, d)
      else _ <~ word "default" ;; _ <~ op ":" ;; b <~ pstmts n ;; _ <~ op "}" ;; ret ([], b))
  end
with ptycases (n : nat) : P (list (ty * list stmt) * list stmt) :=
  match n with
  | O => fail
  | S n => look (fun ts =>
      if peek "}" ts then _ <~ op "}" ;; ret ([], [])
      else if peek_word "case" ts then
        _ <~ word "case" ;; t <~ ptype n ;; _ <~ op ":" ;; b <~ pstmts n ;; ' (cs, d) <~ ptycases n ;; ret ((t, b) :: cs, d)
      else _ <~ word "default" ;; _ <~ op ":" ;; b <~ pstmts n ;; _ <~ op "}" ;; ret ([], b))
  end.

(** * Declarations *)
Definition ptparams : P (list string) :=
  look (fun ts => if peek "[" ts then _ <~ op "[" ;; x <~ ident ;; _ <~ skip_bracket 0 ;; ret [x] else ret []).
Definition recv_params (t : ty) : list string :=
  match t with TyPtr (TyName _ [TyName a []]) | TyName _ [TyName a []] => [a] | _ => [] end.
Definition pfunc (n : nat) : P decl :=
  look (fun ts =>
    if peek "(" ts then
      _ <~ op "(" ;; rx <~ ident ;; rt <~ ptype n ;; _ <~ op ")" ;; f <~ ident ;; _ <~ op "(" ;; ps <~ pparams n ;; rs <~ presult n ;; b <~ pblock n ;;
      ret (DFun {| fd_tparams := recv_params rt; fd_recv := Some (rx, rt); fd_name := f; fd_params := ps; fd_results := rs; fd_body := b |})
    else
      f <~ ident ;; tps <~ ptparams ;; _ <~ op "(" ;; ps <~ pparams n ;; rs <~ presult n ;; b <~ pblock n ;;
      ret (DFun {| fd_tparams := tps; fd_recv := None; fd_name := f; fd_params := ps; fd_results := rs; fd_body := b |})).

(** one line of a const group: name, type, expression, the last two may be missing *)
Definition pconst (n : nat) : P (string * option ty * list expr) :=
  x <~ ident ;;
  look (fun ts =>
    if peek ";" ts then ret (x, None, [])
    else if peek "=" ts then _ <~ op "=" ;; e <~ pexpr n true 1 ;; ret (x, None, [e])
    else t <~ ptype n ;; _ <~ op "=" ;; e <~ pexpr n true 1 ;; ret (x, Some t, [e])).
Fixpoint pconsts (n : nat) : P (list (string * option ty * list expr)) :=
  match n with
  | O => fail
  | S n => look (fun ts => if peek ")" ts then _ <~ op ")" ;; ret [] else c <~ pconst n ;; _ <~ op ";" ;; l <~ pconsts n ;; ret (c :: l))
  end.
Definition pvar (n : nat) : P decl :=
  x <~ ident ;;
  t <~ look (fun ts => if peek "=" ts then ret None else t <~ ptype n ;; ret (Some t)) ;;
  _ <~ op "=" ;;
  look (fun ts =>
    if peek_word "func" ts then
      _ <~ word "func" ;; _ <~ op "(" ;; ps <~ pparams n ;; rs <~ presult n ;; b <~ pblock n ;;
      ret (DFunVar x {| fd_tparams := []; fd_recv := None; fd_name := x; fd_params := ps; fd_results := rs; fd_body := b |})
    else e <~ pexpr n true 1 ;; ret (DVar x t e)).
Fixpoint pvars (n : nat) : P (list decl) :=
  match n with
  | O => fail
  | S n => look (fun ts => if peek ")" ts then _ <~ op ")" ;; ret [] else d <~ pvar n ;; _ <~ op ";" ;; l <~ pvars n ;; ret (d :: l))
  end.
Fixpoint pstruct (n : nat) : P (list (string * ty)) :=
  match n with
  | O => fail
  | S n => look (fun ts => 
      if peek "}" ts then _ <~ op "}" ;; ret []
      else match ts with
           | TOp "*" :: TId q :: TOp "." :: TId x :: TOp ";" :: r =>      (* embedded: *q.x *)
             fun _ => (l <~ pstruct n ;; ret ((x, TyPtr (TyName (q ++ "." ++ x)%string [])) :: l)) r
           | _ => x <~ ident ;; t <~ ptype n ;; _ <~ op ";" ;; l <~ pstruct n ;; ret ((x, t) :: l)
           end)
  end.
Fixpoint pimports (n : nat) : P unit :=
  match n with
  | O => fail
  | S n => fun ts => match ts with TOp ")" :: r => Some (tt, r) | TStr _ :: TOp ";" :: r => pimports n r | _ => None end
  end.
Definition pdecl (n : nat) : P (list decl) :=
  look (fun ts =>
    match ts with
    | TId "import" :: TStr _ :: r => fun _ => Some ([], r)
    | TId "import" :: TOp "(" :: r => fun _ => (_ <~ pimports n ;; ret []) r
    | TId "const" :: TOp "(" :: r => fun _ => (l <~ pconsts n ;; ret [DConst l]) r
    | TId "const" :: r => fun _ => (c <~ pconst n ;; ret [DConst [c]]) r
    | TId "var" :: TOp "(" :: r => fun _ => pvars n r
    | TId "var" :: r => fun _ => (d <~ pvar n ;; ret [d]) r
    | TId "func" :: r => fun _ => (d <~ pfunc n ;; ret [d]) r
    | TId "type" :: r => fun _ =>
      (x <~ ident ;; _ <~ ptparams ;;
       look (fun ts => if peek_word "struct" ts then _ <~ word "struct" ;; _ <~ op "{" ;; fs <~ pstruct n ;; ret [DStruct x fs] else t <~ ptype n ;; ret [DType x t])) r
    | _ => fail
    end).
Fixpoint pdecls (n : nat) : P (list decl) :=
  match n with
  | O => fail
  | S n => fun ts => match ts with [] => Some ([], []) | _ => (ds <~ pdecl n ;; _ <~ op ";" ;; l <~ pdecls n ;; ret (ds ++ l)) ts end
  end.
Definition pfile (n : nat) : P (list decl) := _ <~ word "package" ;; _ <~ ident ;; _ <~ op ";" ;; pdecls n.

(** The lines of a file as one text. *)
Fixpoint join (ls : list string) : string := match ls with [] => "" | l :: r => (l ++ String nl (join r))%string end.
Definition parse (ls : list string) : option (list decl) :=
  match lex (String.length (join ls) + 1) None (join ls) with
  | Some ts => match pfile (List.length ts + 100) ts with Some (ds, []) => Some ds | _ => None end
  | None => None
  end.
