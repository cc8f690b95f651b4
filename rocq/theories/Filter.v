(** Model of internal/iterators/filter/filter.go. *)
From Verif Require Import Base Utf8.

Section AlphaNumeric.
  (** unicode.IsLetter and unicode.IsNumber of Go's standard library, not modelled: any two predicates on runes. *)
  Variable IsLetter IsNumber : N -> bool.

  (** internal/iterators/filter/filter.go:14-22, the loop of AlphaNumeric. *)
  Fixpoint an_loop (fuel : nat) (token : bytes) (pos : nat) : res bool :=
    match fuel with
    | O => OutOfFuel
    | S fuel' =>
      if (pos <? length token)%nat then
        d <- slice_from token pos ;;
        let '(r, w) := DecodeRune d in
        if IsLetter r || IsNumber r then Ok true else an_loop fuel' token (pos + w)
      else Ok false
    end.
  (** internal/iterators/filter/filter.go:12-25 AlphaNumeric. *)
  Definition AlphaNumeric (token : bytes) : res bool := an_loop (S (length token)) token 0.
End AlphaNumeric.
