(** Specification: what the text of a reader.go does, and bufio.Scanner (Scanner.v) calling a split function that is given by its text. *)
From Coq Require Import String.
From Verif Require Import SpecIter SpecApi SpecUtf8 SpecRules.
From Verif Require Import Base Scanner SpecReader.
From Verif Require Import GoSyntax GoSem.
Local Open Scope string_scope.
Local Open Scope list_scope.

(** * Split functions *)
(** What bufio.Scanner sees of the three results: nil or not, and the bytes. *)
Definition split_result (vs : list val) : option split_out :=
  match vs with
  | [VInt _ a; VData o t; e] =>
    let tok := match o with NilBytes => None | _ => Some t end in
    match o, e with
    | Str, _ => None      (* not a []byte *)
    | _, VNil => Some {| so_advance := a; so_token := tok; so_err := None |}
    | _, VErr n => Some {| so_advance := a; so_token := tok; so_err := Some n |}
    | _, _ => None
    end
  | _ => None
  end.
Definition split_outcome (r : out (list val * heap)) : res split_out :=
  match r with
  | Done (vs, _) => match split_result vs with Some r => Ok r | None => Panic end
  | Panics => Panic
  | _ => OutOfFuel
  end.
(** Data as a []byte.  [nils]: whether empty data is a nil slice (it is before the first read). *)
Definition data_val (nils : bool) (d : bytes) : val := VData (match d with [] => if nils then NilBytes else Bytes | _ => Bytes end) d.

Section Text.
  Variables (p : program) (ds : list decl).   (* the package, and its reader.go *)
  Variables (nils : bool) (h : heap).
  (** Calling the value [f]; the loops of the program get as many rounds as the data allows. *)
  Definition value_split (f : val) : splitfun := fun d atEOF => split_outcome (apply (call p (2 * length d + 2) 7) f [data_val nils d; VBool atEOF] h).
  (** Calling func(a []byte, b bool) (...) { return es }, which knows the variables [captured]. *)
  Definition literal_split (a b : string) (es : list expr) (captured : scope) : splitfun := fun d atEOF =>
    split_outcome (evalm p (call p (2 * length d + 2) 7) es [[(a, data_val nils d); (b, VBool atEOF)]; captured] h).

  (** * The statements of reader.go *)
  (** The io.Reader, the bufio.Scanner made for it, the package's Scanner around that one, anything else. *)
  Inductive rval := RReader | RBufio | RScanner | RGo (v : val).
  Definition renv := list (string * rval).
  Fixpoint captured (e : renv) : scope := match e with [] => [] | (x, RGo v) :: r => (x, v) :: captured r | _ :: r => captured r end.
  (** An argument of Split. *)
  Definition split_arg (x : expr) (e : renv) : option splitfun :=
    match x with
    | EId g => if has g e then None else match assoc g (p_globals p) with Some f => Some (value_split f) | None => None end
    | EFn [(a, TySlice (TyName "byte" [])); (b, TyName "bool" [])] [(_, TyName "int" []); (_, TySlice (TyName "byte" [])); (_, TyName "error" [])] es => Some (literal_split a b es (captured e))
    | _ => None
    end.
  (** &Scanner{Scanner: x}, the field being an embedded *bufio.Scanner. *)
  Definition wraps (x : expr) (e : renv) : bool :=
    match x with
    | EUn "&" (EComp "Scanner" [("Scanner", EId y)]) =>
      match assoc "Scanner" (structs ds), assoc y e with
      | Some [("Scanner", TyPtr (TyName "bufio.Scanner" []))], Some RBufio => true
      | _, _ => false
      end
    | EId x => match assoc x e with Some RScanner => true | _ => false end
    | _ => false
    end.
  (** x.Split is bufio's, also through the embedded field. *)
  Definition splits (x : string) (e : renv) : bool :=
    match assoc x e with
    | Some RBufio => true
    | Some RScanner => match find_fun ("Scanner", "Split") (funs ds) with Some _ => false | None => true end
    | _ => false
    end.
  (** [lines]: bufio's own split function, with which NewScanner starts.  [None]: a statement of another kind; else the scanner in the end, and whether it was returned. *)
  Fixpoint reader_stmts (lines : splitfun) (l : list stmt) (e : renv) (sc : option scanner) : option (res (scanner * bool)) :=
    match l, sc with
    | [], Some s => Some (Ok (s, false))
    | SDefine [x] [ECall (ESel (EId "bufio") "NewScanner") [EId r]] :: l, None =>
      match assoc r e with Some RReader => reader_stmts lines l ((x, RBufio) :: e) (Some (FromReader lines)) | _ => None end
    | SExpr (ECall (ESel (EId x) "Split") [f]) :: l, Some s =>
      if splits x e then
        match split_arg f e with
        | Some f => match Split s f with Ok s => reader_stmts lines l e (Some s) | Panic => Some Panic | OutOfFuel => Some OutOfFuel end
        | None => None
        end
      else None
    | SDefine [x] [c] :: l, Some s => if wraps c e then reader_stmts lines l ((x, RScanner) :: e) (Some s) else None
    | SReturn [c] :: _, Some s => if wraps c e then Some (Ok (s, true)) else None
    | _, _ => None
    end.
  (** FromReader(r io.Reader) *Scanner *)
  Definition text_FromReader (lines : splitfun) : option (res (scanner * bool)) :=
    match find_fun ("", "FromReader") (funs ds) with
    | Some f => match fd_params f with [(r, TyName "io.Reader" [])] => reader_stmts lines (fd_body f) [(r, RReader)] None | _ => None end
    | None => None
    end.
  (** (sc *Scanner) Joiners(j *Joiners[[]byte]) for the scanner [s] *)
  Definition text_Joiners (lines : splitfun) (s : scanner) (j : val) : option (res (scanner * bool)) :=
    match find_fun ("Scanner", "Joiners") (funs ds) with
    | Some f => match fd_recv f, fd_params f with
                | Some (sc, TyPtr (TyName "Scanner" [])), [(x, _)] => reader_stmts lines (fd_body f) [(x, RGo j); (sc, RScanner)] (Some s)
                | _, _ => None
                end
    | None => None
    end.
End Text.
(** The argument of Joiners: nil, or &Joiners{Middle: ..., Leading: ...}, where an empty slice is nil if [nils] says so; and the memory with it. *)
Definition joiners_arg (nils : bool) (j : option (list N * list N)) (h : heap) : val * heap :=
  let runes l := VRunes (match l with [] => if nils then None else Some [] | _ => Some (map Z.of_N l) end) in
  match j with
  | None => (VPtr "Joiners" None, h)
  | Some (m, l) => (VPtr "Joiners" (Some (length h)), h ++ [("Joiners", [("Middle", runes m); ("Leading", runes l)])])
  end.

(** * What the client sees *)
(** A scanner that holds less than 2^62 bytes: the buffer given by the client and the size limit set by the client. *)
Definition small (s : scanner) : Prop := (Z.of_nat (length (sc_buf s)) < 2 ^ 62)%Z /\ (sc_max s < 2 ^ 62)%N.
Definition resplit (f : splitfun) (s : scanner) : scanner :=
  {| sc_split := f; sc_max := sc_max s; sc_token := sc_token s; sc_buf := sc_buf s; sc_start := sc_start s; sc_end := sc_end s;
     sc_err := sc_err s; sc_empties := sc_empties s; sc_called := sc_called s |}.
(** Whatever the reader does, right or wrong, and whenever the client starts: with [f] the client's loop sees what it sees with [g]. *)
Definition scans_as (f g : splitfun) : Prop :=
  forall rd r s fuel, small s -> scan_all rd fuel (resplit f s) r = scan_all rd fuel (resplit g s) r.

(** The client's loop with the split function [f].  If Err() is nil in the end: the tokens are the data, cut; and for well-formed data the segments of the standard.
    It is nil when the reader does not stall and all the data would fit in the buffer. *)
Definition reader_conforms (decides : list N -> list N -> SpecRules.op -> Prop) (f : splitfun) : Prop :=
  forall rd r d s fuel, delivers rd r d EOF -> fresh_scanner f s -> small s -> (length d + 2 < fuel)%nat ->
  exists l err, scan_all rd fuel s r = Ok (l, err)
    /\ (err = None -> concat l = d /\ Forall (fun x => x <> []) l
        /\ forall cps, scalars cps -> d = encode cps -> exists segs, l = map encode segs /\ segmentation decides cps segs)
    /\ (lively rd 100 r -> (N.of_nat (length d) < sc_max s)%N -> err = None).

(** C58, for a package with its files and its reader.go: FromReader makes a bufio.Scanner whose split function is as good as [g]. *)
Definition reader_text (code : option program) (file : list string) (g : splitfun) (decides : list N -> list N -> SpecRules.op -> Prop) : Prop :=
  exists p ds, code = Some p /\ parse file = Some ds /\
  forall nils h lines, exists f, text_FromReader p ds nils h lines = Some (Ok (FromReader f, true)) /\ scans_as f g /\ reader_conforms decides f.
(** ... and Joiners, called before the first Scan, replaces it; afterwards it panics. *)
Definition joiners_text (code : option program) (file : list string) (g : option (list N * list N) -> splitfun) : Prop :=
  exists p ds, code = Some p /\ parse file = Some ds /\
  forall j nils nils' h lines s, let (v, h') := joiners_arg nils' j h in
  exists f, text_Joiners p ds nils h' lines s v = Some (if sc_called s then Panic else Ok (resplit f s, false)) /\ scans_as f (g j).
