(** Model of the Go standard library function utf8.DecodeRune / utf8.DecodeRuneInString (documented behaviour:
    the first rune and its width; (RuneError, 0) for empty input; (RuneError, 1) for an invalid encoding,
    including surrogates, overlong forms and values above U+10FFFF).  Used by words/splitfunc.go:24-34
    (decodeRune) and internal/iterators/filter/filter.go:15. *)
From Verif Require Import Base.
Local Open Scope N_scope.

Definition RuneError : N := 0xFFFD.
Definition between (lo hi b : N) : bool := (lo <=? b) && (b <=? hi).
Definition isCont (b : N) : bool := between 0x80 0xBF b.

(** Allowed second bytes for a lead byte of a three- or four-byte form (the "acceptRanges" of Go). *)
Definition accept2 (b0 b1 : N) : bool :=
  if b0 =? 0xE0 then between 0xA0 0xBF b1
  else if b0 =? 0xED then between 0x80 0x9F b1
  else if b0 =? 0xF0 then between 0x90 0xBF b1
  else if b0 =? 0xF4 then between 0x80 0x8F b1
  else isCont b1.

Definition DecodeRune (s : bytes) : N * nat :=
  match s with
  | [] => (RuneError, 0%nat)
  | b0 :: s1 =>
    if b0 <? 0x80 then (b0, 1%nat)
    else if between 0xC2 0xDF b0 then
      match s1 with
      | b1 :: _ => if isCont b1 then ((b0 - 0xC0) * 64 + (b1 - 0x80), 2%nat) else (RuneError, 1%nat)
      | _ => (RuneError, 1%nat)
      end
    else if between 0xE0 0xEF b0 then
      match s1 with
      | b1 :: b2 :: _ =>
        if accept2 b0 b1 && isCont b2
        then ((b0 - 0xE0) * 4096 + (b1 - 0x80) * 64 + (b2 - 0x80), 3%nat) else (RuneError, 1%nat)
      | _ => (RuneError, 1%nat)
      end
    else if between 0xF0 0xF4 b0 then
      match s1 with
      | b1 :: b2 :: b3 :: _ =>
        if accept2 b0 b1 && isCont b2 && isCont b3
        then ((b0 - 0xF0) * 262144 + (b1 - 0x80) * 4096 + (b2 - 0x80) * 64 + (b3 - 0x80), 4%nat)
        else (RuneError, 1%nat)
      | _ => (RuneError, 1%nat)
      end
    else (RuneError, 1%nat)
  end.
