(** Specification: a client of an iterator whose program is given by its text, and the same client with the model. *)
From Coq Require Import String.
From Verif Require Import Base SpecIter SpecApi GoSyntax GoSem.
Local Open Scope string_scope.
Local Open Scope list_scope.

(** A text: a string, or a []byte that may be nil. *)
Definition text := (origin * bytes)%type.
Definition is_string (o : origin) : bool := match o with Str => true | _ => false end.
Definition text_val (t : text) : val := VData (fst t) (snd t).
(** Texts of one of the two types, nil only if empty, not longer than [max]. *)
Definition proper (str : bool) (max : nat) (t : text) : Prop :=
  is_string (fst t) = str /\ (fst t = NilBytes -> snd t = []) /\ (length (snd t) <= max)%nat.

(** What a client does with an iterator. *)
Inductive use (C : Type) := UNext | UValue | UStart | UEnd | UReset | USetText (t : text) | UFirst | UConfig (c : C).
Arguments UNext {C}. Arguments UValue {C}. Arguments UStart {C}. Arguments UEnd {C}. Arguments UReset {C}. Arguments USetText {C} t. Arguments UFirst {C}. Arguments UConfig {C} c.

Section Client.
  Variable A : api.
  (** ** With the model: what each use returns.  [o]: the kind of the current text. *)
  Definition model_use (o : origin) (it : It A) (u : use (Cfg A)) : res (list val * origin * It A) :=
    match u with
    | UNext => ' (b, it') <- a_next A it ;; Ok ([VBool b], o, it')
    | UValue => v <- a_value A it ;; Ok ([VData o v], o, it)
    | UStart => Ok ([vint (a_start A it)], o, it)
    | UEnd => Ok ([vint (a_end A it)], o, it)
    | UReset => Ok ([], o, a_reset A it)
    | USetText t => Ok ([], fst t, a_settext A it (snd t))
    | UFirst => ' (v, it') <- a_first A it ;; Ok ([VData o v], o, it')
    | UConfig c => Ok ([], o, a_config A it c)
    end.
  Fixpoint model_uses (us : list (use (Cfg A))) (o : origin) (it : It A) : res (list (list val)) :=
    match us with
    | [] => Ok []
    | u :: r => ' (vs, o, it) <- model_use o it u ;; l <- model_uses r o it ;; Ok (vs :: l)
    end.
  Definition model_client (t : text) (us : list (use (Cfg A))) : res (list (list val)) := model_uses us (fst t) (a_new A (snd t)).

  (** ** With the program: [config] is what the client writes to change a setting. *)
  Variable p : program.
  Variables rounds depth : nat.
  Variable config : val -> Cfg A -> heap -> out heap.
  Definition method (m : string) (it : val) (vs : list val) (h : heap) : out (list val * heap) := call p rounds depth ("Iterator", m) (it :: vs) h.
  Definition go_use (it : val) (u : use (Cfg A)) (h : heap) : out (list val * heap) :=
    match u with
    | UNext => method "Next" it [] h
    | UValue => method "Value" it [] h
    | UStart => method "Start" it [] h
    | UEnd => method "End" it [] h
    | UReset => method "Reset" it [] h
    | USetText t => method "SetText" it [text_val t] h
    | UFirst => method "First" it [] h
    | UConfig c => h <== config it c h ;; Done ([], h)
    end.
  Fixpoint go_uses (us : list (use (Cfg A))) (it : val) (h : heap) : out (list (list val)) :=
    match us with
    | [] => Done []
    | u :: r => ' (vs, h) <== go_use it u h ;; l <== go_uses r it h ;; Done (vs :: l)
    end.
  Definition go_client (t : text) (us : list (use (Cfg A))) (h : heap) : out (list (list val)) :=
    ' (vs, h) <== call p rounds depth ("", if is_string (fst t) then "FromString" else "FromBytes") [text_val t] h ;;
    match vs with [it] => go_uses us it h | _ => Stuck end.
End Client.

(** All texts used are proper. *)
Definition use_proper {C} (str : bool) (max : nat) (u : use C) : Prop := match u with USetText t => proper str max t | _ => True end.

(** The program computes what the model says: any text of either type, any sequence of uses; no text longer than [max] bytes, which is below 2^62; loops may take
    at least [2 * max + 2] rounds; calls may be nested at least [least] deep. *)
Definition program_is_model (A : api) (p : program) (least : nat) (config : program -> nat -> nat -> val -> Cfg A -> heap -> out heap) : Prop :=
  forall str max rounds depth t us h, proper str max t -> Forall (use_proper str max) us -> (Z.of_nat max < 2 ^ 62)%Z -> (2 * max + 2 <= rounds)%nat -> (least <= depth)%nat ->
  exists l, model_client A t us = Ok l /\ go_client A p rounds depth (config p rounds depth) t us h = Done l.
(** Iterators without settings. *)
Definition no_config (p : program) (rounds depth : nat) (it : val) (c : Empty_set) (h : heap) : out heap := match c with end.
(** The same for a split function. *)
Definition program_is_split (f : splitfun) (p : program) (name : string) (least : nat) : Prop :=
  forall str max rounds depth t atEOF h, proper str max t -> (Z.of_nat max < 2 ^ 62)%Z -> (2 * max + 2 <= rounds)%nat -> (least <= depth)%nat ->
  exists r h', f (snd t) atEOF = Ok r /\ call p rounds depth ("", name) [text_val t; VBool atEOF] h = Done (out_vals (fst t) r, h').
(** The same for a question about a []byte. *)
Definition program_is_test (f : bytes -> res bool) (p : program) (name : string) (least : nat) : Prop :=
  forall max rounds depth t h, proper false max t -> (Z.of_nat max < 2 ^ 62)%Z -> (2 * max + 2 <= rounds)%nat -> (least <= depth)%nat ->
  exists b, f (snd t) = Ok b /\ call p rounds depth ("", name) [text_val t] h = Done ([VBool b], h).
