(** Go-level basics: outcomes, checked slices and arrays, loops on fuel. *)
From Coq Require Export List Arith NArith ZArith Bool Lia.
Export ListNotations.

(** Outcome of running a piece of Go code.  [Panic] is a run-time panic (index or slice out of range, or an
    explicit [panic] call); [OutOfFuel] is a loop that has not finished within the fuel given to the model. *)
Inductive res (A : Type) : Type :=
| Ok (a : A)
| Panic
| OutOfFuel.
Arguments Ok {A} a.
Arguments Panic {A}.
Arguments OutOfFuel {A}.

Definition bind {A B} (m : res A) (f : A -> res B) : res B :=
  match m with Ok a => f a | Panic => Panic | OutOfFuel => OutOfFuel end.
Notation "x <- e ;; k" := (bind e (fun x => k)) (at level 61, e at next level, right associativity).
Notation "' p <- e ;; k" := (bind e (fun p => k)) (at level 61, p pattern, e at next level, right associativity).

(** A byte is an [N]; a Go [string] or [[]byte] is a [list N]. *)
Definition bytes := list N.

(** [data[pos:]] -- panics when [pos > len(data)]. *)
Definition slice_from (data : bytes) (pos : nat) : res bytes :=
  if length data <? pos then Panic else Ok (skipn pos data).

(** [data[:pos]] -- panics when [pos > len(data)] (for strings; for a []byte Go allows up to the capacity,
    the model is stricter). *)
Definition slice_to (data : bytes) (pos : nat) : res bytes :=
  if length data <? pos then Panic else Ok (firstn pos data).

(** [data[lo:hi]] -- panics unless [lo <= hi <= len(data)]. *)
Definition slice (data : bytes) (lo hi : nat) : res bytes :=
  if (hi <? lo) || (length data <? hi) then Panic else Ok (firstn (hi - lo) (skipn lo data)).

(** [data[i]] -- panics when [i >= len(data)]. *)
Definition byte_at (data : bytes) (i : nat) : res N :=
  match nth_error data i with Some b => Ok b | None => Panic end.

(** What a split function returns: [(advance, token, err)]; [token] is [None] for Go's nil / empty value. *)
Record split_out := { so_advance : Z; so_token : option bytes; so_err : option N }.
Definition splitfun := bytes -> bool -> res split_out.

Definition is_nil {A} (l : list A) : bool := match l with [] => true | _ => false end.
