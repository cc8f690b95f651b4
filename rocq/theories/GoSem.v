(** Specification: what Go programs do, for the part of the language read by GoSyntax.v.  An interpreter: run-time panics,
    integers that wrap around, scopes, structs in a heap, methods, type parameters for string and []byte.  Whatever is not
    covered makes it get stuck, so that a result other than [Stuck] is what Go does. *)
From Coq Require Import String.
From Verif Require Import Base Trie Utf8 GoSyntax.
Local Open Scope string_scope.
Local Open Scope list_scope.

(** [Forever]: a loop has not finished within the number of rounds allowed. *)
Inductive out (A : Type) := Done (a : A) | Panics | Forever | Stuck.
Arguments Done {A} a. Arguments Panics {A}. Arguments Forever {A}. Arguments Stuck {A}.
Definition obind {A B} (m : out A) (k : A -> out B) : out B :=
  match m with Done a => k a | Panics => Panics | Forever => Forever | Stuck => Stuck end.
Notation "x <== m ;; k" := (obind m (fun x => k)) (at level 61, m at next level, right associativity).
Notation "' p <== m ;; k" := (obind m (fun p => k)) (at level 61, p pattern, m at next level, right associativity).
Definition some {A} (o : option A) : out A := match o with Some a => Done a | None => Stuck end.

(** * Values *)
Inductive ikind := I64 | I32 | U8 | U16 | U32 | U64.
(** An integer type: an untyped constant, or a type with its name. *)
Inductive ity := Untyped | Typed (name : string) (k : ikind).
Inductive origin := Str | Bytes | NilBytes.

Inductive val :=
| VInt (t : ity) (z : Z)
| VBool (b : bool)
| VData (o : origin) (b : bytes)             (* string or []byte *)
| VRunes (rs : option (list Z))              (* []rune, nil or not *)
| VPtr (name : string) (l : option nat)      (* pointer to a struct, nil or not *)
| VObj (name : string) (l : nat)             (* a variable of struct type *)
| VStruct (name : string) (fs : list (string * val))
| VFun (f : string)
| VMethod (recv : val) (m : string)
| VExt (f : splitfun)                        (* a function of the client's *)
| VNil
| VErr (e : N)
| VText (s : string)
| VArr (t : ity) (a : arr)
| VType (str : bool).                        (* what a type parameter stands for: string or []byte *)

Definition range (k : ikind) : Z * Z :=
  match k with
  | I64 => (- 2 ^ 63, 2 ^ 64) | I32 => (- 2 ^ 31, 2 ^ 32) | U8 => (0, 2 ^ 8) | U16 => (0, 2 ^ 16) | U32 => (0, 2 ^ 32) | U64 => (0, 2 ^ 64)
  end%Z.
Definition wrap (k : ikind) (z : Z) : Z := let (lo, n) := range k in (lo + (z - lo) mod n)%Z.
Definition wrapt (t : ity) (z : Z) : Z := match t with Untyped => z | Typed _ k => wrap k z end.
Definition tint : ity := Typed "int" I64.
Definition tbyte : ity := Typed "uint8" U8.
Definition trune : ity := Typed "int32" I32.
Definition vint (n : nat) : val := VInt tint (Z.of_nat n).

(** Both operands have the same type, or one is an untyped constant. *)
Definition join_ty (a b : ity) : option ity :=
  match a, b with
  | Untyped, t => Some t
  | t, Untyped => Some t
  | Typed x k, Typed y _ => if String.eqb x y then Some (Typed x k) else None
  end.
Definition arith (op : string) (t : ity) (a b : Z) : option Z :=
  match op with
  | "+" => Some (wrapt t (a + b)%Z) | "-" => Some (wrapt t (a - b)%Z) | "*" => Some (wrapt t (a * b)%Z)
  | "|" => Some (Z.lor a b) | "&" => Some (Z.land a b)
  | _ => None
  end.
Definition compare (op : string) (a b : Z) : option bool :=
  match op with
  | "==" => Some (a =? b)%Z | "!=" => Some (negb (a =? b)%Z)
  | "<" => Some (a <? b)%Z | "<=" => Some (a <=? b)%Z
  | ">" => Some (b <? a)%Z | ">=" => Some (b <=? a)%Z
  | _ => None
  end.
Definition nil_val (v : val) : option bool :=
  match v with
  | VNil => Some true | VErr _ => Some false
  | VPtr _ l => Some (match l with None => true | Some _ => false end)
  | VRunes r => Some (match r with None => true | Some _ => false end)
  | _ => None
  end.
Definition binop (op : string) (v w : val) : out val :=
  match v, w with
  | VInt t a, VInt u b =>
    match op with
    | "<<" => if (b <? 0)%Z then Panics else Done (VInt t (wrapt t (Z.shiftl a b)))
    | ">>" => if (b <? 0)%Z then Panics else Done (VInt t (wrapt t (Z.shiftr a b)))
    | "%" => match join_ty t u with
             | Some t => if (b =? 0)%Z then Panics else Done (VInt t (wrapt t (Z.rem a b)))
             | None => Stuck
             end
    | _ =>
      match join_ty t u with
      | None => Stuck
      | Some t =>
        match arith op t a b with
        | Some c => Done (VInt t c)
        | None => match compare op a b with Some c => Done (VBool c) | None => Stuck end
        end
      end
    end
  | VBool a, VBool b => match op with "==" => Done (VBool (Bool.eqb a b)) | "!=" => Done (VBool (negb (Bool.eqb a b))) | _ => Stuck end
  | v, VNil =>
    match nil_val v with
    | Some b => match op with "==" => Done (VBool b) | "!=" => Done (VBool (negb b)) | _ => Stuck end
    | None => Stuck
    end
  | _, _ => Stuck
  end.

(** * Memory and variables *)
Definition fields := list (string * val).
Definition object := (string * fields)%type.
Definition heap := list object.
Definition hget (l : nat) (h : heap) : option object := nth_error h l.
Fixpoint hset (l : nat) (o : object) (h : heap) {struct h} : heap :=
  match h, l with
  | [], _ => []
  | _ :: r, O => o :: r
  | x :: r, S l => x :: hset l o r
  end.
Definition alloc (h : heap) (o : object) : heap := h ++ [o].
Definition scope := list (string * val).
Definition vars := list scope.
Fixpoint assoc {A} (x : string) (l : list (string * A)) : option A :=
  match l with [] => None | (y, v) :: r => if String.eqb x y then Some v else assoc x r end.
Fixpoint put {A} (x : string) (v : A) (l : list (string * A)) : list (string * A) :=
  match l with [] => [] | (y, w) :: r => if String.eqb x y then (y, v) :: r else (y, w) :: put x v r end.
Definition has {A} (x : string) (l : list (string * A)) : bool := match assoc x l with Some _ => true | None => false end.
Fixpoint get_var (x : string) (e : vars) : option val :=
  match e with [] => None | s :: r => match assoc x s with Some v => Some v | None => get_var x r end end.
Fixpoint set_var (x : string) (v : val) (e : vars) : vars :=
  match e with [] => [] | s :: r => if has x s then put x v s :: r else s :: set_var x v r end.
Definition add_var (x : string) (v : val) (e : vars) : vars :=
  match e with [] => [[(x, v)]] | s :: r => ((x, v) :: s) :: r end.
(** A struct is kept in the heap. *)
Definition declare (x : string) (v : val) (e : vars) (h : heap) : vars * heap :=
  match v with
  | VStruct n fs => (add_var x (VObj n (List.length h)) e, alloc h (n, fs))
  | _ => (add_var x v e, h)
  end.
(** An untyped constant takes the type of the variable it is assigned to. *)
Definition like (old new : val) : val :=
  match old, new with
  | VInt t _, VInt Untyped z => VInt t z
  | VPtr n _, VNil => VPtr n None
  | VRunes _, VNil => VRunes None
  | _, _ => new
  end.
(** The type of an untyped constant in x := c. *)
Definition settle (v : val) : val := match v with VInt Untyped z => VInt tint z | _ => v end.

(** * Programs *)
(** A function is known by the name of its receiver's type ("" for none) and its own. *)
Definition fid := (string * string)%type.
Record program := {
  p_funs : list (fid * fundecl);
  p_types : list (string * ty);
  p_structs : list (string * list (string * ty));
  p_globals : list (string * val);
  p_letter : N -> bool;         (* unicode.IsLetter *)
  p_number : N -> bool          (* unicode.IsNumber *)
}.
Definition fid_eqb (f g : fid) : bool := if String.eqb (fst f) (fst g) then String.eqb (snd f) (snd g) else false.
Fixpoint find_fun (f : fid) (l : list (fid * fundecl)) : option fundecl :=
  match l with [] => None | (g, d) :: r => if fid_eqb f g then Some d else find_fun f r end.
Definition has_fun (f : fid) (p : program) : bool := match find_fun f (p_funs p) with Some _ => true | None => false end.

Definition basic (x : string) : option ity :=
  match x with
  | "int" => Some tint | "byte" | "uint8" => Some tbyte | "rune" | "int32" => Some trune
  | "uint16" => Some (Typed "uint16" U16) | "uint32" => Some (Typed "uint32" U32) | "uint64" => Some (Typed "uint64" U64)
  | _ => None
  end.
Definition int_type (p : program) (x : string) : option ity :=
  match basic x with
  | Some t => Some t
  | None => match assoc x (p_types p) with
            | Some (TyName y []) => match basic y with Some (Typed _ k) => Some (Typed x k) | _ => None end
            | _ => None
            end
  end.
(** Assigning to something of a known type. *)
Definition conv (p : program) (t : ty) (v : val) : val :=
  match v with
  | VInt Untyped z => match t with TyName x [] => match int_type p x with Some i => VInt i z | None => v end | _ => v end
  | VNil => match t with TyPtr (TyName n _) => VPtr n None | TySlice (TyName "rune" []) => VRunes None | _ => VNil end
  | _ => v
  end.
Definition zero1 (p : program) (e : vars) (t : ty) : option val :=
  match t with
  | TyName "bool" [] => Some (VBool false)
  | TyName "error" [] => Some VNil
  | TySlice (TyName "rune" []) => Some (VRunes None)
  | TySlice (TyName "byte" []) => Some (VData NilBytes [])
  | TyPtr (TyName n _) => Some (VPtr n None)
  | TyName x [] =>
    match get_var x e with
    | Some (VType s) => Some (VData (if s then Str else NilBytes) [])
    | Some _ => None
    | None => match int_type p x with Some i => Some (VInt i 0) | None => None end
    end
  | _ => None
  end.
Fixpoint zeros (p : program) (e : vars) (fs : list (string * ty)) : option fields :=
  match fs with
  | [] => Some []
  | (x, t) :: r => match zero1 p e t, zeros p e r with Some v, Some l => Some ((x, v) :: l) | _, _ => None end
  end.
Definition zero (p : program) (e : vars) (t : ty) : option val :=
  match t with
  | TyName n _ => match assoc n (p_structs p) with
                  | Some fs => match zeros p e fs with Some l => Some (VStruct n l) | None => None end
                  | None => zero1 p e t
                  end
  | _ => zero1 p e t
  end.

(** * Running *)
Inductive flow := Fall | Brk (label : string) | Cont (label : string) | Ret (vs : list val).
Definition one (r : out (list val * heap)) : out (val * heap) := ' (vs, h) <== r ;; match vs with [v] => Done (v, h) | _ => Stuck end.

(** data[lo:hi] *)
Definition cut (o : origin) (b : bytes) (lo hi : Z) : out val :=
  if (lo <? 0)%Z || (hi <? lo)%Z then Panics
  else if (Z.of_nat (List.length b) <? hi)%Z then match o with Str => Panics | _ => Stuck end   (* []byte: it depends on the capacity *)
  else Done (VData o (firstn (Z.to_nat (hi - lo)) (skipn (Z.to_nat lo) b))).
Definition index (v : val) (z : Z) : out val :=
  match v with
  | VData _ b => if (z <? 0)%Z then Panics else match nth_error b (Z.to_nat z) with Some c => Done (VInt tbyte (Z.of_N c)) | None => Panics end
  | VArr t a => if (z <? 0)%Z then Panics else match arr_get a (Z.to_N z) with Ok c => Done (VInt t (Z.of_N c)) | _ => Panics end
  | _ => Stuck
  end.
Definition fields_of (v : val) (h : heap) : out fields :=
  match v with
  | VPtr _ None => Panics
  | VPtr _ (Some l) | VObj _ l => match hget l h with Some (_, fs) => Done fs | None => Stuck end
  | _ => Stuck
  end.
(** v.x: a field or a method *)
Definition select (p : program) (v : val) (x : string) (h : heap) : out val :=
  match v with
  | VInt (Typed n _) _ => if has_fun (n, x) p then Done (VMethod v x) else Stuck
  | VPtr n None => if has_fun (n, x) p then Done (VMethod v x) else Panics
  | VPtr n (Some l) | VObj n l => if has_fun (n, x) p then Done (VMethod (VPtr n (Some l)) x) else fs <== fields_of v h ;; some (assoc x fs)
  | _ => Stuck
  end.
Definition std (p : program) (f : string) (args : list val) : out (list val) :=
  match f, args with
  | "utf8.DecodeRune", [VData _ b] => let (r, w) := DecodeRune b in Done [VInt trune (Z.of_N r); vint w]
  | "utf8.DecodeRuneInString", [VData _ b] => let (r, w) := DecodeRune b in Done [VInt trune (Z.of_N r); vint w]
  | "unicode.IsLetter", [VInt _ z] => if (z <? 0)%Z then Done [VBool false] else Done [VBool (p_letter p (Z.to_N z))]
  | "unicode.IsNumber", [VInt _ z] => if (z <? 0)%Z then Done [VBool false] else Done [VBool (p_number p (Z.to_N z))]
  | _, _ => Stuck
  end.
Definition builtin (p : program) (f : string) (args : list val) : out (list val) :=
  match f, args with
  | "len", [VData _ b] => Done [vint (List.length b)]
  | "panic", [_] => Panics
  | "string", [VData _ b] => Done [VData Str b]
  | _, [VInt _ z] => match int_type p f with Some i => Done [VInt i (wrapt i z)] | None => Stuck end
  | _, _ => Stuck
  end.
(** What a client's function returns. *)
Definition tok_val (o : origin) (t : option bytes) : val :=
  match t with Some b => VData (match o with NilBytes => Bytes | _ => o end) b | None => VData (match o with Str => Str | _ => NilBytes end) [] end.
Definition err_val (e : option N) : val := match e with Some n => VErr n | None => VNil end.
Definition out_vals (o : origin) (r : split_out) : list val := [VInt tint (so_advance r); tok_val o (so_token r); err_val (so_err r)].

(** A loop: [k] rounds at most.  A labelled break or continue may be meant for an outer loop. *)
Definition mine (label l : string) : bool := if String.eqb l "" then true else String.eqb l label.
Fixpoint loop (k : nat) (label : string) (cond : vars -> heap -> out (bool * heap)) (body post : vars -> heap -> out (flow * vars * heap)) (e : vars) (h : heap)
  : out (flow * vars * heap) :=
  match k with
  | O => Forever
  | S k' =>
    ' (c, h) <== cond e h ;;
    if c : bool then
      ' (f, e, h) <== body e h ;;
      let again := ' (_, e, h) <== post e h ;; loop k' label cond body post e h in
      match f with
      | Fall => again
      | Cont l => if mine label l then again else Done (f, e, h)
      | Brk l => if mine label l then Done (Fall, e, h) else Done (f, e, h)
      | Ret _ => Done (f, e, h)
      end
    else Done (Fall, e, h)
  end.
Fixpoint each (label : string) (body : Z -> vars -> heap -> out (flow * vars * heap)) (l : list Z) (e : vars) (h : heap) : out (flow * vars * heap) :=
  match l with
  | [] => Done (Fall, e, h)
  | z :: r =>
    ' (f, e, h) <== body z e h ;;
    match f with
    | Fall => each label body r e h
    | Cont l => if mine label l then each label body r e h else Done (f, e, h)
    | Brk l => if mine label l then Done (Fall, e, h) else Done (f, e, h)
    | Ret _ => Done (f, e, h)
    end
  end.
Definition leave (r : out (flow * vars * heap)) : out (flow * vars * heap) := ' (f, e, h) <== r ;; Done (f, tl e, h).

(** The name of something in a package. *)
Definition qual (q x : string) : string := String.append q (String.append "." x).

Section Run.
  Variable p : program.
  Variable call : fid -> list val -> heap -> out (list val * heap).
  Variable rounds : nat.

  Definition apply (f : val) (args : list val) (h : heap) : out (list val * heap) :=
    match f with
    | VFun f => call ("", f) args h
    | VMethod (VInt (Typed n k) z) m => call (n, m) (VInt (Typed n k) z :: args) h
    | VMethod (VPtr n l) m => call (n, m) (VPtr n l :: args) h
    | VExt f =>
      match args with
      | [VData o b; VBool eof] => match f b eof with Ok r => Done (out_vals o r, h) | Panic => Panics | OutOfFuel => Forever end
      | _ => Stuck
      end
    | _ => Stuck
    end.

  Definition name_val (x : string) (e : vars) : out val :=
    match get_var x e with
    | Some v => Done v
    | None =>
      match assoc x (p_globals p) with
      | Some v => Done v
      | None => if has_fun ("", x) p then Done (VFun x)
                else match x with "true" => Done (VBool true) | "false" => Done (VBool false) | "nil" => Done VNil | _ => Stuck end
      end
    end.
  (** A name that is declared nowhere: a package or something predeclared. *)
  Definition unknown (x : string) (e : vars) : bool :=
    match get_var x e with Some _ => false | None => if has x (p_globals p) then false else if has_fun ("", x) p then false else true end.

  (** The values of an expression: one, except for calls. *)
  Fixpoint eval (x : expr) (e : vars) (h : heap) {struct x} : out (list val * heap) :=
    let args := fix args (l : list expr) (h : heap) : out (list val * heap) :=
      match l with
      | [] => Done ([], h)
      | a :: r => ' (v, h) <== one (eval a e h) ;; ' (vs, h) <== args r h ;; Done (v :: vs, h)
      end in
    match x with
    | EId x => v <== name_val x e ;; match v with VObj _ _ => Stuck | _ => Done ([v], h) end
    | EInt z => Done ([VInt Untyped z], h)
    | EStr s => Done ([VText s], h)
    | ETy _ => Stuck
    | EFn _ _ _ => Stuck
    | EBin op a b =>
      ' (v, h) <== one (eval a e h) ;;
      match op, v with
      | "&&", VBool false => Done ([VBool false], h)
      | "||", VBool true => Done ([VBool true], h)
      | "&&", VBool true | "||", VBool false => ' (w, h) <== one (eval b e h) ;; match w with VBool c => Done ([VBool c], h) | _ => Stuck end
      | "&&", _ | "||", _ => Stuck
      | _, _ => ' (w, h) <== one (eval b e h) ;; r <== binop op v w ;; Done ([r], h)
      end
    | EUn op a =>
      match op with
      | "!" => ' (v, h) <== one (eval a e h) ;; match v with VBool b => Done ([VBool (negb b)], h) | _ => Stuck end
      | "-" => ' (v, h) <== one (eval a e h) ;; match v with VInt t z => Done ([VInt t (wrapt t (- z))], h) | _ => Stuck end
      | "*" => ' (v, h) <== one (eval a e h) ;;
          match v with VPtr n (Some l) => fs <== fields_of v h ;; Done ([VStruct n fs], h) | VPtr _ None => Panics | _ => Stuck end
      | "&" => ' (v, h) <== one (eval a e h) ;; match v with VStruct n fs => Done ([VPtr n (Some (List.length h))], alloc h (n, fs)) | _ => Stuck end
      | _ => Stuck
      end
    | ECall (EId f) l =>
      ' (vs, h) <== args l h ;;
      if unknown f e then rs <== builtin p f vs ;; Done (rs, h) else v <== name_val f e ;; apply v vs h
    | ECall (ESel (EId q) m) l =>
      if unknown q e then ' (vs, h) <== args l h ;; rs <== std p (qual q m) vs ;; Done (rs, h)
      else r <== name_val q e ;; v <== select p r m h ;; ' (vs, h) <== args l h ;; apply v vs h
    | ECall (ESel a m) l => ' (r, h) <== one (eval a e h) ;; v <== select p r m h ;; ' (vs, h) <== args l h ;; apply v vs h
    | ECall _ _ => Stuck
    | ESel (EId q) x =>
      if unknown q e then match (qual q x) with "utf8.RuneSelf" => Done ([VInt Untyped 128], h) | _ => Stuck end
      else r <== name_val q e ;; v <== select p r x h ;; Done ([v], h)
    | ESel a x => ' (r, h) <== one (eval a e h) ;; v <== select p r x h ;; Done ([v], h)
    | EIndex a i =>
      ' (v, h) <== one (eval a e h) ;;
      match v with
      | VFun f => Done ([VFun f], h)      (* an instance of a generic function *)
      | _ => ' (w, h) <== one (eval i e h) ;; match w with VInt _ z => r <== index v z ;; Done ([r], h) | _ => Stuck end
      end
    | ESlice a lo hi =>
      ' (v, h) <== one (eval a e h) ;;
      match v with
      | VData o b =>
        ' (l, h) <== match lo with Some x => ' (w, h) <== one (eval x e h) ;; match w with VInt _ z => Done (z, h) | _ => Stuck end | None => Done (0%Z, h) end ;;
        ' (r, h) <== match hi with Some x => ' (w, h) <== one (eval x e h) ;; match w with VInt _ z => Done (z, h) | _ => Stuck end
                    | None => Done (Z.of_nat (List.length b), h) end ;;
        c <== cut o b l r ;; Done ([c], h)
      | _ => Stuck
      end
    | EComp n l =>
      match assoc n (p_structs p) with
      | None => Stuck
      | Some decls =>
        ' (given, h) <== (fix fill (l : list (string * expr)) (h : heap) : out (fields * heap) :=
             match l with
             | [] => Done ([], h)
             | (x, a) :: r => ' (v, h) <== one (eval a e h) ;; ' (vs, h) <== fill r h ;; Done ((x, v) :: vs, h)
             end) l h ;;
        fs <== (fix all (ds : list (string * ty)) : out fields :=
             match ds with
             | [] => Done []
             | (x, t) :: r => v <== match assoc x given with Some v => Done (conv p t v) | None => some (zero1 p e t) end ;; vs <== all r ;; Done ((x, v) :: vs)
             end) decls ;;
        Done ([VStruct n fs], h)
      end
    end.
  Fixpoint evals (l : list expr) (e : vars) (h : heap) : out (list val * heap) :=
    match l with
    | [] => Done ([], h)
    | a :: r => ' (v, h) <== one (eval a e h) ;; ' (vs, h) <== evals r e h ;; Done (v :: vs, h)
    end.
  (** The right-hand side of an assignment, or results: one call with several results, or several expressions. *)
  Definition evalm (l : list expr) (e : vars) (h : heap) : out (list val * heap) := match l with [x] => eval x e h | _ => evals l e h end.

  Definition assign (l : expr) (v : val) (e : vars) (h : heap) : out (vars * heap) :=
    match l with
    | EId "_" => Done (e, h)
    | EId x => match get_var x e with
               | Some (VObj _ _) => Stuck
               | Some old => Done (set_var x (like old v) e, h)
               | None => Stuck
               end
    | ESel (EId q) x =>
      match get_var q e with
      | Some (VPtr _ None) => Panics
      | Some (VPtr n (Some k)) | Some (VObj n k) =>
        match hget k h with
        | Some (n, fs) => match assoc x fs with Some old => Done (e, hset k (n, put x (like old v) fs) h) | None => Stuck end
        | None => Stuck
        end
      | _ => Stuck
      end
    | _ => Stuck
    end.
  Fixpoint assign_all (ls : list expr) (vs : list val) (e : vars) (h : heap) : out (vars * heap) :=
    match ls, vs with
    | [], [] => Done (e, h)
    | l :: ls, v :: vs => ' (e, h) <== assign l v e h ;; assign_all ls vs e h
    | _, _ => Stuck
    end.
  Definition innermost (x : string) (e : vars) : bool := match e with s :: _ => has x s | [] => false end.
  Fixpoint define_all (xs : list string) (vs : list val) (e : vars) (h : heap) : out (vars * heap) :=
    match xs, vs with
    | [], [] => Done (e, h)
    | x :: xs, v :: vs =>
      if String.eqb x "_" then define_all xs vs e h
      else if innermost x e then ' (e, h) <== assign (EId x) v e h ;; define_all xs vs e h
      else let (e, h) := declare x (settle v) e h in define_all xs vs e h
    | _, _ => Stuck
    end.
  Fixpoint declare_all (xs : list string) (v : val) (e : vars) (h : heap) : vars * heap :=
    match xs with [] => (e, h) | x :: r => let (e, h) := declare x v e h in declare_all r v e h end.

  Fixpoint exec (s : stmt) (e : vars) (h : heap) {struct s} : out (flow * vars * heap) :=
    let block := fix block (l : list stmt) (e : vars) (h : heap) : out (flow * vars * heap) :=
      match l with
      | [] => Done (Fall, e, h)
      | s :: r => ' (f, e, h) <== exec s e h ;; match f with Fall => block r e h | _ => Done (f, e, h) end
      end in
    let scoped l e h := leave (block l ([] :: e) h) in
    let maybe (o : option stmt) e h := match o with Some s => exec s e h | None => Done (Fall, e, h) end in
    match s with
    | SVar xs t init =>
      match init with
      | Some x => ' (v, h) <== one (eval x e h) ;; let (e, h) := declare_all xs (conv p t v) e h in Done (Fall, e, h)
      | None => v <== some (zero p e t) ;; let (e, h) := declare_all xs v e h in Done (Fall, e, h)
      end
    | SDefine xs es => ' (vs, h) <== evalm es e h ;; ' (e, h) <== define_all xs vs e h ;; Done (Fall, e, h)
    | SAssign ls es => ' (vs, h) <== evalm es e h ;; ' (e, h) <== assign_all ls vs e h ;; Done (Fall, e, h)
    | SOp l op x =>
      ' (v, h) <== one (eval l e h) ;; ' (w, h) <== one (eval x e h) ;; r <== binop op v w ;; ' (e, h) <== assign l r e h ;; Done (Fall, e, h)
    | SExpr x => ' (_, h) <== eval x e h ;; Done (Fall, e, h)
    | SIf init c th el =>
      leave (' (_, e, h) <== maybe init ([] :: e) h ;;
             ' (v, h) <== one (eval c e h) ;;
             match v with VBool b => if b then scoped th e h else scoped el e h | _ => Stuck end)
    | SFor label init c post body =>
      leave (' (_, e, h) <== maybe init ([] :: e) h ;;
             loop rounds label
               (fun e h => match c with Some x => ' (v, h) <== one (eval x e h) ;; match v with VBool b => Done (b, h) | _ => Stuck end | None => Done (true, h) end)
               (scoped body) (maybe post) e h)
    | SRange label x a body =>
      ' (v, h) <== one (eval a e h) ;;
      match v with
      | VRunes None => Done (Fall, e, h)
      | VRunes (Some l) => each label (fun z e h => leave (scoped body ([(x, VInt trune z)] :: e) h)) l e h
      | _ => Stuck
      end
    | SSwitch cases tag default =>
      leave (
        ' (t, h) <== match tag with Some x => one (eval x e h) | None => Done (VBool true, h) end ;;
        let e := [] :: e in
        ' (f, e, h) <== (fix pick (cs : list (list expr * list stmt)) (h : heap) : out (flow * vars * heap) :=
           match cs with
           | [] => scoped default e h
           | (xs, b) :: r =>
             ' (hit, h) <== (fix any (xs : list expr) (h : heap) : out (bool * heap) :=
                match xs with
                | [] => Done (false, h)
                | x :: xs => ' (v, h) <== one (eval x e h) ;; m <== binop "==" t v ;; match m with VBool true => Done (true, h) | VBool false => any xs h | _ => Stuck end
                end) xs h ;;
             if hit : bool then scoped b e h else pick r h
           end) cases h ;;
        match f with Brk "" => Done (Fall, e, h) | _ => Done (f, e, h) end)
    | STypeSwitch x a cases default =>
      match a with
      | ECall (EId "any") [a] =>
        ' (v, h) <== one (eval a e h) ;;
        match v with
        | VData o _ =>
          leave ((fix pick (cs : list (ty * list stmt)) (h : heap) : out (flow * vars * heap) :=
             match cs with
             | [] => scoped default ([(x, v)] :: e) h
             | (t, b) :: r =>
               if match t, o with TyName "string" [], Str | TySlice (TyName "byte" []), Bytes | TySlice (TyName "byte" []), NilBytes => true | _, _ => false end
               then scoped b ([(x, v)] :: e) h else pick r h
             end) cases h)
        | _ => Stuck
        end
      | _ => Stuck
      end
    | SBreak l => Done (Brk l, e, h)
    | SContinue l => Done (Cont l, e, h)
    | SReturn es => ' (vs, h) <== evalm es e h ;; Done (Ret vs, e, h)
    end.
  Fixpoint block (l : list stmt) (e : vars) (h : heap) : out (flow * vars * heap) :=
    match l with
    | [] => Done (Fall, e, h)
    | s :: r => ' (f, e, h) <== exec s e h ;; match f with Fall => block r e h | _ => Done (f, e, h) end
    end.

  (** ** Functions *)
  (** A type parameter is known from the arguments. *)
  Fixpoint infer (x : string) (ps : list (string * ty)) (vs : list val) : scope :=
    match ps, vs with
    | (_, TyName y []) :: ps, VData o _ :: vs => if String.eqb x y then [(x, VType (match o with Str => true | _ => false end))] else infer x ps vs
    | _ :: ps, _ :: vs => infer x ps vs
    | _, _ => []
    end.
  Fixpoint params (ps : list (string * ty)) (vs : list val) : option scope :=
    match ps, vs with
    | [], [] => Some []
    | (x, t) :: ps, v :: vs => match params ps vs with Some s => Some ((x, conv p t v) :: s) | None => None end
    | _, _ => None
    end.
  Fixpoint results (rs : list (string * ty)) (e : vars) : option scope :=
    match rs with
    | [] => Some []
    | ("", _) :: r => results r e
    | (x, t) :: r => match zero1 p e t, results r e with Some v, Some s => Some ((x, v) :: s) | _, _ => None end
    end.
  Fixpoint conv_all (rs : list (string * ty)) (vs : list val) : option (list val) :=
    match rs, vs with
    | [], [] => Some []
    | (_, t) :: rs, v :: vs => match conv_all rs vs with Some l => Some (conv p t v :: l) | None => None end
    | _, _ => None
    end.
  Definition enter (f : fundecl) (vs : list val) : option vars :=
    let recv := match fd_recv f with Some q => [q] | None => [] end in
    match params (recv ++ fd_params f) vs with
    | None => None
    | Some s =>
      let types := List.concat (map (fun x => infer x (recv ++ fd_params f) vs) (fd_tparams f)) in
      match results (fd_results f) [types] with Some rs => Some [s ++ rs; types] | None => None end
    end.
  Definition run_fun (f : fundecl) (vs : list val) (h : heap) : out (list val * heap) :=
    e <== some (enter f vs) ;;
    ' (r, _, h) <== block (fd_body f) e h ;;
    match r with
    | Ret vs => l <== some (conv_all (fd_results f) vs) ;; Done (l, h)
    | Fall => match fd_results f with [] => Done ([], h) | _ => Stuck end
    | _ => Stuck
    end.
End Run.

(** [depth]: how deep calls may be nested. *)
Fixpoint call (p : program) (rounds depth : nat) (f : fid) (vs : list val) (h : heap) : out (list val * heap) :=
  match depth with
  | O => Forever
  | S d => match find_fun f (p_funs p) with Some fd => run_fun p (call p rounds d) rounds fd vs h | None => Stuck end
  end.

(** * From declarations to a program *)
Definition recv_name (t : ty) : string := match t with TyName x _ | TyPtr (TyName x _) => x | _ => "" end.
Fixpoint funs (ds : list decl) : list (fid * fundecl) :=
  match ds with
  | DFun f :: r => ((match fd_recv f with Some (_, t) => recv_name t | None => "" end, fd_name f), f) :: funs r
  | DFunVar x f :: r => (("", x), f) :: funs r
  | _ :: r => funs r
  | [] => []
  end.
Fixpoint types (ds : list decl) : list (string * ty) := match ds with DType x t :: r => (x, t) :: types r | _ :: r => types r | [] => [] end.
Fixpoint structs (ds : list decl) : list (string * list (string * ty)) := match ds with DStruct x fs :: r => (x, fs) :: structs r | _ :: r => structs r | [] => [] end.
Definition const_val (p : program) (e : vars) (x : expr) : option val :=
  match eval p (fun _ _ _ => Stuck) x e [] with Done ([v], _) => Some v | _ => None end.
Definition with_globals (p : program) (g : list (string * val)) : program :=
  {| p_funs := p_funs p; p_types := p_types p; p_structs := p_structs p; p_globals := g; p_letter := p_letter p; p_number := p_number p |}.
(** A constant group: [i] is iota; [t] and [x] belong to the last line that had an expression. *)
Fixpoint consts (p : program) (i : Z) (t : option ty) (x : list expr) (l : list (string * option ty * list expr)) : option program :=
  match l with
  | [] => Some p
  | (c, t', x') :: r =>
    let t := match x' with [] => t | _ => t' end in
    let x := match x' with [] => x | _ => x' end in
    match x with
    | [a] => match const_val p [[("iota", VInt Untyped i)]] a with
             | Some v => consts (with_globals p ((c, match t with Some t => conv p t v | None => v end) :: p_globals p)) (i + 1) t x r
             | None => None
             end
    | _ => None
    end
  end.
Fixpoint globals (p : program) (ds : list decl) : option program :=
  match ds with
  | [] => Some p
  | DConst l :: r => match consts p 0 None [] l with Some p => globals p r | None => None end
  | DVar x t a :: r => match const_val p [] a with Some v => globals (with_globals p ((x, settle v) :: p_globals p)) r | None => None end
  | _ :: r => globals p r
  end.
(** [tables]: the two arrays of the trie. *)
Definition link (letter number : N -> bool) (tables : list (string * val)) (ds : list decl) : option program :=
  match globals {| p_funs := funs ds; p_types := types ds; p_structs := structs ds; p_globals := []; p_letter := letter; p_number := number |} ds with
  | Some p => Some (with_globals p (p_globals p ++ tables))
  | None => None
  end.

(** Files one after the other. *)
Fixpoint parse_all (l : list (list string)) : option (list decl) :=
  match l with [] => Some [] | f :: r => match parse f, parse_all r with Some a, Some b => Some (a ++ b) | _, _ => None end end.
Definition compile (letter number : N -> bool) (tables : list (string * val)) (files : list (list string)) : option program :=
  match parse_all files with Some ds => link letter number tables ds | None => None end.
Definition decls_of (files : list (list string)) : list decl := match parse_all files with Some ds => ds | None => [] end.
(** For packages that do not use [unicode]. *)
Definition none (_ : N) : bool := false.
