(** Specification: a text without the marks and format characters (soft hyphens, directional marks, word joiners, variation selectors, accents) that follow other characters. *)
From Verif Require Import Base SpecUcd.

Section Strip.
  (** Characters to remove; characters after which they are removed. *)
  Variables invisible holds : N -> bool.
  Fixpoint strip_from (held : bool) (t : list N) : list N :=
    match t with
    | [] => []
    | c :: r => if held && invisible c then strip_from true r else c :: strip_from (holds c) r
    end.
  Definition strip (t : list N) : list N := strip_from false t.
End Strip.

(** For words and phrases: not after a line end, a space or a zero width joiner, nor at the start of the text. *)
Definition w_invisible (c : N) : bool := match WB c with WB_Extend | WB_Format => true | _ => false end.
Definition w_holds (c : N) : bool := match WB c with WB_CR | WB_LF | WB_Newline | WB_ZWJ | WB_WSegSpace => false | _ => true end.
Definition w_strip : list N -> list N := strip w_invisible w_holds.
(** For sentences: not after the end of a paragraph, nor at the start of the text. *)
Definition s_invisible (c : N) : bool := match SB c with SB_Extend | SB_Format => true | _ => false end.
Definition s_holds (c : N) : bool := match SB c with SB_Sep | SB_CR | SB_LF => false | _ => true end.
Definition s_strip : list N -> list N := strip s_invisible s_holds.
