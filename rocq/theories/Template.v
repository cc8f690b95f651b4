(** Model of text/template (Go 1.2x, packages text/template and text/template/parse) for the actions that internal/gen/triegen/print.go uses:
    fields, variables, declarations, function calls with parenthesised arguments, if/else and range over lists.  Pipes, comments, trimming of white
    space, with, template, block, break and continue are not in use there; a template that has them does not parse here.  When an action fails,
    Go has written what comes before it; here the result is None. *)
From Coq Require Import String.
From Verif Require Import Base Triegen SpecData GenParse SpecGoSource Print.
Local Open Scope N_scope.

(** * text/template/parse/lex.go *)
(** An operand without blanks: letters, digits, underscores, points and dollar signs. *)
Inductive item := Wd (w : bytes) | Quote (s : bytes) | Declare | Comma | Open | Close.
Definition operand_char (c : N) : bool := wordy c || (c =? 0x2E) || (c =? 0x24).
Definition flush_word (w : bytes) : list item := match w with [] => [] | _ => [Wd (rev w)] end.
(** lexInsideAction; [quote]: the characters since an opening quotation mark, backwards.  Escapes are not in use. *)
Fixpoint items (word : bytes) (quote : option bytes) (s : bytes) : option (list item) :=
  match quote, s with
  | Some _, [] => None
  | Some q, c :: r => if c =? 0x22 then option_map (cons (Quote (rev q))) (items [] None r) else if (c =? 0x5C) || (c =? 10) then None else items [] (Some (c :: q)) r
  | None, [] => Some (flush_word word)
  | None, c :: r =>
    if operand_char c then items (c :: word) None r
    else let then_ (i : list item) o := option_map (app (flush_word word ++ i)) o in
    if c =? 32 then then_ [] (items [] None r)
    else if c =? 0x22 then then_ [] (items [] (Some []) r)
    else if c =? 0x2C then then_ [Comma] (items [] None r)
    else if c =? 0x28 then then_ [Open] (items [] None r)
    else if c =? 0x29 then then_ [Close] (items [] None r)
    else match c, r with 0x3A, 0x3D :: r' => then_ [Declare] (items [] None r') | _, _ => None end
  end.
(** lexText, lexLeftDelim, lexRightDelim: the text up to the next pair of braces, the action, and so on.  [inside]: in an action; [acc] backwards. *)
Inductive piece := Literal (s : bytes) | Action (l : list item).
Fixpoint pieces (inside : bool) (acc : bytes) (s : bytes) : option (list piece) :=
  match s with
  | [] => if inside then None else Some [Literal (rev acc)]
  | c :: r =>
    match inside, c, r with
    | false, 0x7B, 0x7B :: r' => option_map (cons (Literal (rev acc))) (pieces true [] r')
    | true, 0x7D, 0x7D :: r' => match items [] None (rev acc), pieces false [] r' with Some i, Some l => Some (Action i :: l) | _, _ => None end
    | _, _, _ => pieces inside (c :: acc) r
    end
  end.

(** * text/template/parse/parse.go *)
Inductive expr := Path (from : option bytes) (fields : list bytes) | Number (n : N) | Text_ (s : bytes) | Call (f : bytes) (args : list expr).
Inductive tnode := Literally (s : bytes) | Show (e : expr) | Let (x : bytes) (e : expr) | If (e : expr) (yes no : list tnode) | Range (vars : option (bytes * bytes)) (e : expr) (body : list tnode).

(** A chain of fields after a point. *)
Fixpoint split_dots (acc : bytes) (s : bytes) : list bytes :=
  match s with [] => [rev acc] | c :: r => if c =? 0x2E then rev acc :: split_dots [] r else split_dots (c :: acc) r end.
Definition is_empty (s : bytes) : bool := match s with [] => true | _ => false end.
Definition fields_of (l : list bytes) : option (list bytes) := if existsb (fun s => is_empty s || negb (forallb wordy s)) l then None else Some l.
Definition number_of (w : bytes) : option N := digits 10 0 w.
(** operand: a word that is not a function. *)
Definition operand (w : bytes) : option expr :=
  match w with
  | [0x2E] => Some (Path None [])
  | 0x2E :: r => option_map (Path None) (fields_of (split_dots [] r))
  | 0x24 :: _ => match split_dots [] w with x :: fs => option_map (Path (Some x)) (fields_of fs) | [] => None end
  | _ => option_map Number (number_of w)
  end.
Definition function_name (w : bytes) : bool := match w with c :: _ => forallb wordy w && negb ((0x30 <=? c) && (c <=? 0x39)) | [] => false end.
(** pipeline and command: a function with its arguments, or one operand.  [fuel] bounds the nesting. *)
Fixpoint arguments (fuel : nat) (l : list item) : option (list expr * list item) :=
  match fuel with
  | O => None
  | S f =>
    let more e r := match arguments f r with Some (es, r') => Some (e :: es, r') | None => None end in
    match l with
    | [] => Some ([], [])
    | Close :: _ => Some ([], l)
    | Quote s :: r => more (Text_ s) r
    | Wd w :: r => match operand w with Some e => more e r | None => None end
    | Open :: Wd w :: r =>
      if function_name w then match arguments f r with Some (es, Close :: r') => more (Call w es) r' | _ => None end
      else match operand w, r with Some e, Close :: r' => more e r' | _, _ => None end
    | _ => None
    end
  end.
Definition command (l : list item) : option expr :=
  match l with
  | Wd w :: r =>
    if function_name w then match arguments (S (length l)) r with Some (es, []) => Some (Call w es) | _ => None end
    else match arguments (S (length l)) l with Some ([e], []) => Some e | _ => None end
  | Quote s :: [] => Some (Text_ s)
  | _ => None
  end.
Definition is_var (w : bytes) : bool := match w with 0x24 :: r => negb (is_empty r) && forallb wordy r | _ => false end.
Inductive clause := CIf (e : expr) | CElse | CEnd | CRange (v : option (bytes * bytes)) (e : expr) | CLet (x : bytes) (e : expr) | CShow (e : expr).
Definition clause_of (l : list item) : option clause :=
  match l with
  | [Wd w] => if same w (str "else") then Some CElse else if same w (str "end") then Some CEnd else option_map CShow (command l)
  | Wd x :: Declare :: r => if is_var x then option_map (CLet x) (command r) else None
  | Wd w :: r =>
    if same w (str "if") then option_map CIf (command r)
    else if same w (str "range") then
      match r with
      | Wd i :: Comma :: Wd v :: Declare :: r' => if is_var i && is_var v then option_map (CRange (Some (i, v))) (command r') else None
      | _ => option_map (CRange None) (command r)
      end
    else if existsb (same w) (map str ["else"; "end"; "with"; "template"; "block"; "define"; "break"; "continue"]%string) then None
    else option_map CShow (command l)
  | _ => None
  end.
(** itemList: up to the end of the text, else or end. *)
Inductive stop := AtEnd | AtElse | AtEOF.
Fixpoint nodes (fuel : nat) (l : list piece) : option (list tnode * stop * list piece) :=
  match fuel with
  | O => None
  | S f =>
    let more n r := match nodes f r with Some (ns, st, r') => Some (n :: ns, st, r') | None => None end in
    match l with
    | [] => Some ([], AtEOF, [])
    | Literal s :: r => more (Literally s) r
    | Action a :: r =>
      match clause_of a with
      | None => None
      | Some CElse => Some ([], AtElse, r)
      | Some CEnd => Some ([], AtEnd, r)
      | Some (CShow e) => more (Show e) r
      | Some (CLet x e) => more (Let x e) r
      | Some (CRange v e) => match nodes f r with Some (b, AtEnd, r') => more (Range v e b) r' | _ => None end
      | Some (CIf e) =>
        match nodes f r with
        | Some (a, AtEnd, r') => more (If e a []) r'
        | Some (a, AtElse, r') => match nodes f r' with Some (b, AtEnd, r'') => more (If e a b) r'' | _ => None end
        | _ => None
        end
      end
    end
  end.
(** Template.Parse. *)
Definition parse_template (s : bytes) : option (list tnode) :=
  match pieces false [] s with
  | Some l => match nodes (S (length l)) l with Some (ns, AtEOF, []) => Some ns | _ => None end
  | None => None
  end.

(** * text/template/exec.go *)
(** Values: integers of any type are one kind, and none is negative; Block is a []uint64 or a *node. *)
Inductive val := VNum (n : N) | VStr (s : bytes) | VBool (b : bool) | VList (l : list val) | VRec (fs : list (bytes * val)) | Block (vs : list N).
Fixpoint get {A} (n : bytes) (l : list (bytes * A)) : option A := match l with [] => None | (k, v) :: r => if same k n then Some v else get n r end.
(** evalFieldChain: a field, or a method without arguments. *)
Fixpoint follow (v : val) (fs : list bytes) : option val :=
  match fs with [] => Some v | f :: r => match v with VRec l => match get f l with Some w => follow w r | None => None end | _ => None end end.
(** fmt.Sprint of one argument, and of an action's value (printValue). *)
Definition shown (v : val) : option bytes :=
  match v with VNum n => Some (dec n) | VStr s => Some s | VBool b => Some (if b then str "true" else str "false") | _ => None end.
(** fmt.Sprintf with text and %0wx. *)
Fixpoint sprintf (f : bytes) (args : list val) : option bytes :=
  match f with
  | [] => match args with [] => Some [] | _ => None end
  | 0x25 :: 0x30 :: w :: 0x78 :: r =>
    match args with VNum n :: args' => if (0x31 <=? w) && (w <=? 0x39) then option_map (app (pad (N.to_nat (w - 0x30)) (hex n))) (sprintf r args') else None | _ => None end
  | c :: r => if c =? 0x25 then None else option_map (cons c) (sprintf r args)
  end.
(** text/template/funcs.go: len, gt, eq, ne, print, printf. *)
Definition val_eq (a b : val) : option bool :=
  match a, b with VNum x, VNum y => Some (x =? y) | VStr s, VStr t => Some (same s t) | VBool x, VBool y => Some (Bool.eqb x y) | _, _ => None end.
Definition count {A} (l : list A) : N := N.of_nat (length l).
Definition builtin (f : bytes) (args : list val) : option val :=
  if same f (str "len") then match args with [VList l] => Some (VNum (count l)) | [VStr s] => Some (VNum (count s)) | [Block l] => Some (VNum (count l)) | _ => None end
  else if same f (str "gt") then match args with [VNum x; VNum y] => Some (VBool (y <? x)) | _ => None end
  else if same f (str "eq") then match args with [a; b] => option_map VBool (val_eq a b) | _ => None end
  else if same f (str "ne") then match args with [a; b] => option_map (fun r => VBool (negb r)) (val_eq a b) | _ => None end
  else if same f (str "print") then match args with [a] => option_map VStr (shown a) | _ => None end
  else if same f (str "printf") then match args with VStr f :: r => option_map VStr (sprintf f r) | _ => None end
  else None.

Definition funcs := list (bytes * (list val -> option val)).
Fixpoint all_some {A} (l : list (option A)) : option (list A) :=
  match l with [] => Some [] | Some a :: r => option_map (cons a) (all_some r) | None :: _ => None end.
(** evalPipeline; [vars]: the variables in scope, the last declared first.  The functions given by Funcs come before the predeclared ones. *)
Fixpoint eval (F : funcs) (dot : val) (vars : list (bytes * val)) (e : expr) : option val :=
  match e with
  | Path None fs => follow dot fs
  | Path (Some x) fs => match get x vars with Some v => follow v fs | None => None end
  | Number n => Some (VNum n)
  | Text_ s => Some (VStr s)
  | Call f args => match all_some (map (eval F dot vars) args) with Some vs => match get f F with Some g => g vs | None => builtin f vs end | None => None end
  end.
(** IsTrue. *)
Definition truth (v : val) : bool := match v with VNum n => negb (n =? 0) | VStr s => negb (is_empty s) | VBool b => b | VList l => match l with [] => false | _ => true end | VRec _ => true | Block l => match l with [] => false | _ => true end end.
(** walkRange: the body for each element and its number. *)
Fixpoint each (body : N -> val -> option bytes) (i : N) (l : list val) : option bytes :=
  match l with
  | [] => Some []
  | v :: r => match body i v with Some a => match each body (i + 1) r with Some b => Some (a ++ b) | None => None end | None => None end
  end.
(** walk: the text written and the variables afterwards.  What is declared in the body of if or range ends with it; range sets the point. *)
Fixpoint walk (F : funcs) (n : tnode) (dot : val) (vars : list (bytes * val)) {struct n} : option (bytes * list (bytes * val)) :=
  let many := fix many (l : list tnode) (dot : val) (vars : list (bytes * val)) {struct l} : option bytes :=
    match l with
    | [] => Some []
    | n :: r => match walk F n dot vars with Some (a, vars') => match many r dot vars' with Some b => Some (a ++ b) | None => None end | None => None end
    end in
  match n with
  | Literally s => Some (s, vars)
  | Show e => match eval F dot vars e with Some v => match shown v with Some s => Some (s, vars) | None => None end | None => None end
  | Let x e => match eval F dot vars e with Some v => Some ([], (x, v) :: vars) | None => None end
  | If e a b => match eval F dot vars e with Some v => match many (if truth v then a else b) dot vars with Some s => Some (s, vars) | None => None end | None => None end
  | Range iv e body =>
    match eval F dot vars e with
    | Some (VList l) =>
      match each (fun i v => many body v (match iv with Some (x, y) => (y, v) :: (x, VNum i) :: vars | None => vars end)) 0 l with Some s => Some (s, vars) | None => None end
    | _ => None
    end
  end.
Fixpoint walk_all (F : funcs) (l : list tnode) (dot : val) (vars : list (bytes * val)) : option bytes :=
  match l with
  | [] => Some []
  | n :: r => match walk F n dot vars with Some (a, vars') => match walk_all F r dot vars' with Some b => Some (a ++ b) | None => None end | None => None end
  end.
(** template.Must(template.New(_).Funcs(F).Parse(text)).Execute(w, data). *)
Definition execute (F : funcs) (text : bytes) (data : val) : option bytes :=
  match parse_template text with Some ns => walk_all F ns data [([0x24], data)] | None => None end.

(** * internal/gen/triegen/print.go *)
(** A raw string constant of a Go file: what stands between the quotation marks of [const name = `...`]. *)
Fixpoint until_tick (s : bytes) : bytes := match s with [] => [] | c :: r => if c =? 0x60 then [] else c :: until_tick r end.
Fixpoint raw_const (name : bytes) (s : bytes) : option bytes :=
  let opening := [10] ++ str "const " ++ name ++ str " = `" in
  match s with [] => None | _ :: r => if starts opening s then Some (until_tick (skipn (length opening) s)) else raw_const name r end.

(** strings.Title of ASCII text: a letter begins a word unless a letter, a digit or an underscore comes before it. *)
Fixpoint title_from (inside : bool) (s : bytes) : bytes :=
  match s with [] => [] | c :: r => (if negb inside && (0x61 <=? c) && (c <=? 0x7A) then c - 0x20 else c) :: title_from (wordy c) r end.
Definition title (s : bytes) : bytes := title_from false s.

(** What print reads of the builder (triegen.go:77-125): the name, the tries with their indexes and checksums, the compactions, the blocks, and what
    build and Size have computed. *)
Record trie_info := { ti_name : bytes; ti_checksum : N; ti_ascii : N; ti_starter : N }.
Record compaction := { c_cutoff : N; c_offset : N; c_handler : bytes }.
Record built := { bt_name : bytes; bt_tries : list trie_info; bt_compactions : list compaction; bt_values : list (list N); bt_index : list (list N);
                  bt_vtype : bytes; bt_vsize : N; bt_itype : bytes; bt_isize : N; bt_checksum : N; bt_size : N }.
Definition rec (l : list (string * val)) : val := VRec (map (fun '(k, v) => (str k, v)) l).
(** print.go:18-37: the statistics, the names of the starter blocks, SourceType. *)
Definition print_data (b : built) : val :=
  let nv := N.of_nat (length (bt_values b)) * N.of_nat blockSize in let ni := N.of_nat (length (bt_index b)) * N.of_nat blockSize in
  let one := match bt_tries b with [_] => true | _ => false end in
  rec [("Name"%string, VStr (bt_name b)); ("ValueType"%string, VStr (bt_vtype b)); ("ValueSize"%string, VNum (bt_vsize b)); ("IndexType"%string, VStr (bt_itype b)); ("IndexSize"%string, VNum (bt_isize b));
       ("SourceType"%string, VStr (str "[]byte"));
       ("Trie"%string, VList (map (fun t => rec [("Name"%string, VStr (ti_name t)); ("Checksum"%string, VNum (ti_checksum t)); ("ASCIIIndex"%string, VNum (ti_ascii t)); ("StarterIndex"%string, VNum (ti_starter t))]) (bt_tries b)));
       ("IndexBlocks"%string, VList (map Block (bt_index b))); ("ValueBlocks"%string, VList (map Block (bt_values b)));
       ("Compactions"%string, VList (map (fun c => rec [("Cutoff"%string, VNum (c_cutoff c)); ("Offset"%string, VNum (c_offset c)); ("Handler"%string, VStr (c_handler c))]) (bt_compactions b)));
       ("Checksum"%string, VNum (bt_checksum b)); ("Size"%string, VNum (bt_size b));
       ("ASCIIBlock"%string, VStr (if one then bt_name b ++ str "Values" else str "t.ascii")); ("StarterBlock"%string, VStr (if one then bt_name b ++ str "Index" else str "t.utf8Start"));
       ("Stats"%string, rec [("NValueEntries"%string, VNum nv); ("NValueBytes"%string, VNum (nv * bt_vsize b)); ("NIndexEntries"%string, VNum ni); ("NIndexBytes"%string, VNum (ni * bt_isize b));
                      ("NHandleBytes"%string, VNum (N.of_nat (length (bt_tries b)) * 2 * bt_isize b))])]%list.
(** print.go:98-108: the functions of trieGen.  dec is only called with a length that is not 0.  printIndex looks the handles of a block up in the builder; a row of [bt_index] holds them (Triegen.v). *)
Definition trie_funcs : funcs :=
  [(str "printValues", fun args => match args with [VNum i; Block vs] => Some (VStr (printValues i vs)) | _ => None end);
   (str "printIndex", fun args => match args with [VRec _; VNum i; Block row] => Some (VStr (printIndex i row)) | _ => None end);
   (str "title", fun args => match args with [VStr s] => Some (VStr (title s)) | _ => None end);
   (str "dec", fun args => match args with [VNum n] => if n =? 0 then None else Some (VNum (n - 1)) | _ => None end);
   (str "psize", fun args => match args with [VNum n] => Some (VStr (psize n)) | _ => None end)].
(** print.go:38-44: the two templates, one after the other.  The simple compacter prints nothing (compact.go:53-56).  [text]: the file print.go. *)
Definition print_go (text : bytes) (b : built) : option bytes :=
  match raw_const (str "lookupTemplate") text, raw_const (str "trieTemplate") text with
  | Some l, Some t =>
    match execute [] l (print_data b), execute trie_funcs t (print_data b) with Some x, Some y => Some (x ++ y) | _, _ => None end
  | _, _ => None
  end.

(** triegen.go:169-200 Gen up to print, for one trie of the given name and the simple compacter: what build leaves in the builder.  The first trie
    has ASCIIIndex 0 and StarterIndex 0 (triegen.go:410, triegen.go:428-430, 464); getIntType always says property (triegen.go:377-387). *)
Definition gen_built (H : list N -> N) (name : bytes) (t : node) : built :=
  let '(h, b) := buildTrie H t in
  let imax := N.max (b_maxHandle b + 1) (N.of_nat (length (b_index b) - 1 - blockOffset)) in
  {| bt_name := name; bt_tries := [{| ti_name := name; ti_checksum := h; ti_ascii := 0; ti_starter := 0 |}];
     bt_compactions := [{| c_cutoff := b_maxHandle b + 1; c_offset := 0; c_handler := name ++ str "Values[n<<6+uint32(b)]" |}];
     bt_values := b_values b; bt_index := b_index b; bt_vtype := str "property"; bt_vsize := intSize (maxValue t 0);
     bt_itype := str "property"; bt_isize := intSize imax; bt_checksum := h; bt_size := Size t b |}.
(** main.go:400-465 writeTrie, with the templates that the file [text] holds. *)
Definition writeTemplates (text : bytes) (H : list N -> N) (p : package) (names : list bytes) (t : node) : option bytes :=
  option_map (fun s => edits (package_name p) (head_text p names ++ s)) (print_go text (gen_built H (package_name p) t)).
