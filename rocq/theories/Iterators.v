(** Model of internal/iterators/iterator.go.  Go's int is a 64-bit two's complement integer: [pos] and [start] are kept in Z and
    addition wraps around.  A method that changes the iterator returns the new state beside its outcome, also when it panics: a caller
    may recover from the panic and go on using the iterator. *)
From Verif Require Import Base.
Local Open Scope Z_scope.

Definition maxint : Z := 2 ^ 63 - 1.
(** Go's int arithmetic. *)
Definition wrap (z : Z) : Z := (z + 2 ^ 63) mod 2 ^ 64 - 2 ^ 63.
Definition len (d : bytes) : Z := Z.of_nat (length d).

(** data[lo:], data[:hi] and data[lo:hi] with int bounds. *)
Definition zslice (d : bytes) (lo hi : Z) : res bytes :=
  if (0 <=? lo) && (lo <=? hi) && (hi <=? len d) then Ok (firstn (Z.to_nat (hi - lo)) (skipn (Z.to_nat lo) d)) else Panic.

(** iterator.go:7-12 Iterator. *)
Record iter := { it_split : splitfun; it_data : bytes; it_start : Z; it_pos : Z }.
(** iterator.go:15-20 New. *)
Definition New (split : splitfun) (data : bytes) : iter := {| it_split := split; it_data := data; it_start := 0; it_pos := 0 |}.
(** iterator.go:23-27 SetText. *)
Definition SetText (it : iter) (data : bytes) : iter := {| it_split := it_split it; it_data := data; it_start := 0; it_pos := 0 |}.
(** iterator.go:30-32 Split. *)
Definition Split (it : iter) (split : splitfun) : iter := {| it_split := split; it_data := it_data it; it_start := it_start it; it_pos := it_pos it |}.
(** iterator.go:85-88 Reset. *)
Definition Reset (it : iter) : iter := {| it_split := it_split it; it_data := it_data it; it_start := 0; it_pos := 0 |}.
Definition at_ (it : iter) (start pos : Z) : iter := {| it_split := it_split it; it_data := it_data it; it_start := start; it_pos := pos |}.

(** iterator.go:36-67 Next. *)
Definition Next (it : iter) : iter * res bool :=
  if it_pos it =? len (it_data it) then (it, Ok false)
  else if len (it_data it) <? it_pos it then (it, Panic)
  else
    let it1 := at_ it (it_pos it) (it_pos it) in
    match zslice (it_data it) (it_pos it) (len (it_data it)) with
    | Ok d =>
      if len d =? 1 then (at_ it1 (it_start it1) (wrap (it_pos it1 + 1)), Ok true)
      else match it_split it d true with
      | Ok o =>
        match so_err o with
        | Some _ => (it1, Panic)
        | None =>
          if so_advance o <=? 0 then (it1, Panic)
          else
            let it2 := at_ it1 (it_start it1) (wrap (it_pos it1 + so_advance o)) in
            if len (it_data it2) <? it_pos it2 then (it2, Panic) else (it2, Ok true)
        end
      | Panic => (it1, Panic)
      | OutOfFuel => (it1, OutOfFuel)
      end
    | Panic => (it1, Panic)
    | OutOfFuel => (it1, OutOfFuel)
    end.

(** iterator.go:70-72 Value. *)
Definition Value (it : iter) : res bytes := zslice (it_data it) (it_start it) (it_pos it).
(** iterator.go:75-77 Start and iterator.go:80-82 End. *)
Definition Start (it : iter) : Z := it_start it.
Definition End_ (it : iter) : Z := it_pos it.

(** iterator.go:90-105 First. *)
Definition First (it : iter) : res bytes :=
  if len (it_data it) =? 0 then Ok (it_data it)
  else o <- it_split it (it_data it) true ;;
    match so_err o with
    | Some _ => Panic
    | None =>
      if so_advance o <=? 0 then Panic
      else if len (it_data it) <? so_advance o then Panic
      else zslice (it_data it) 0 (so_advance o)
    end.
