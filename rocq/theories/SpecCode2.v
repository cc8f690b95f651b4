(** Specification: clients of internal/iterators whose program is given by its text, and the same clients with the model; a client of words who also sets split functions of
    their own. *)
From Coq Require Import String.
From Verif Require Import SpecIter SpecApi ApiInst.
From Verif Require Import Base GoSyntax GoSem SpecCode SpecIterators.
From Verif Require Iterators Words CodeWords.
Local Open Scope string_scope.
Local Open Scope list_scope.

(** The outcome of the program for an outcome of the model.  A function of the client's that does not return is [OutOfFuel] there and [Forever] here. *)
Definition outcome {A} (r : res A) : out A := match r with Ok a => Done a | Panic => Panics | OutOfFuel => Forever end.
Definition zint (z : Z) : val := VInt tint z.

(** ** internal/iterators.  The setting is the split function. *)
Definition it_use (o : origin) (it : Iterators.iter) (u : use splitfun) : res (list val * origin * Iterators.iter) :=
  match u with
  | UNext => let (it', r) := Iterators.Next it in b <- r ;; Ok ([VBool b], o, it')
  | UValue => v <- Iterators.Value it ;; Ok ([VData o v], o, it)
  | UStart => Ok ([zint (Iterators.Start it)], o, it)
  | UEnd => Ok ([zint (Iterators.End_ it)], o, it)
  | UReset => Ok ([], o, Iterators.Reset it)
  | USetText t => Ok ([], fst t, Iterators.SetText it (snd t))
  | UFirst => v <- Iterators.First it ;; Ok ([VData o v], o, it)
  | UConfig f => Ok ([], o, Iterators.Split it f)
  end.
Fixpoint it_uses (us : list (use splitfun)) (o : origin) (it : Iterators.iter) : res (list (list val)) :=
  match us with
  | [] => Ok []
  | u :: r => ' (vs, o, it) <- it_use o it u ;; l <- it_uses r o it ;; Ok (vs :: l)
  end.
Definition it_client (f : splitfun) (t : text) (us : list (use splitfun)) : res (list (list val)) := it_uses us (fst t) (Iterators.New f (snd t)).

Section Program.
  Variable p : program.
  Variables rounds depth : nat.
  Definition go_it_use (it : val) (u : use splitfun) (h : heap) : out (list val * heap) :=
    match u with
    | UNext => method p rounds depth "Next" it [] h
    | UValue => method p rounds depth "Value" it [] h
    | UStart => method p rounds depth "Start" it [] h
    | UEnd => method p rounds depth "End" it [] h
    | UReset => method p rounds depth "Reset" it [] h
    | USetText t => method p rounds depth "SetText" it [text_val t] h
    | UFirst => method p rounds depth "First" it [] h
    | UConfig f => method p rounds depth "Split" it [VExt f] h
    end.
  Fixpoint go_it_uses (us : list (use splitfun)) (it : val) (h : heap) : out (list (list val)) :=
    match us with
    | [] => Done []
    | u :: r => ' (vs, h) <== go_it_use it u h ;; l <== go_it_uses r it h ;; Done (vs :: l)
    end.
  Definition go_it_client (f : splitfun) (t : text) (us : list (use splitfun)) (h : heap) : out (list (list val)) :=
    ' (vs, h) <== call p rounds depth ("", "New") [VExt f; text_val t] h ;;
    match vs with [it] => go_it_uses us it h | _ => Stuck end.
End Program.
(** The program computes what the model says, panics included, for any split functions. *)
Definition it_use_proper (str : bool) (max : nat) (u : use splitfun) : Prop := match u with USetText t => proper str max t | UConfig f => returns_ints f | _ => True end.
Definition iterators_program_is_model (p : program) : Prop :=
  forall str max rounds depth f t us h, returns_ints f -> proper str max t -> Forall (it_use_proper str max) us -> (Z.of_nat max < 2 ^ 62)%Z -> (1 <= depth)%nat ->
  go_it_client p rounds depth f t us h = outcome (it_client f t us).

(** ** words, where the setting is joiners or a split function *)
Definition words_any : api := {|
  It := Words.iter; Cfg := option Words.Joiners + splitfun;
  a_new := Words.FromBytes; a_next := Words.Next; a_value := Words.Value; a_start := Words.Start; a_end := Words.End_;
  a_reset := Words.Reset; a_settext := Words.SetText; a_first := Words.First;
  a_config it c := match c with inl j => Words.setJoiners it j | inr f => Words.Split it f end |}.
Definition words_any_config (nils : bool) (p : program) (rounds depth : nat) (it : val) (c : option Words.Joiners + splitfun) (h : heap) : out heap :=
  match c with
  | inl j => CodeWords.words_config nils p rounds depth it j h
  | inr f => ' (_, h) <== method p rounds depth "Split" it [VExt f] h ;; Done h
  end.
(** Functions that do not advance by 2^62 or more: the model of words adds without wrapping around. *)
Definition modest (f : splitfun) : Prop := forall d b o, f d b = Ok o -> (so_advance o < 2 ^ 62)%Z.
Definition any_use_proper (str : bool) (max : nat) (u : use (option Words.Joiners + splitfun)) : Prop :=
  match u with USetText t => proper str max t | UConfig (inr f) => modest f | _ => True end.
Definition words_program_is_model (p : program) (least : nat) : Prop :=
  forall nils str max rounds depth t us h, proper str max t -> Forall (any_use_proper str max) us -> (Z.of_nat max < 2 ^ 62)%Z -> (2 * max + 2 <= rounds)%nat -> (least <= depth)%nat ->
  go_client words_any p rounds depth (words_any_config nils p rounds depth) t us h = outcome (model_client words_any t us).
