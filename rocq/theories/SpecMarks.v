(** Specification: combining marks, the characters that take them, and respelling a character as another one with marks. *)
From Verif Require Import Base SpecUcd SpecSame.

Definition mark (c : N) : Prop := GCB c = GCB_Extend /\ InCB c = InCB_Extend /\ WB c = WB_Extend /\ SB c = SB_Extend /\ ExtPict c = false.
(** Letters, digits, punctuation, pictographs: nothing that has a part of its own in the rules of grapheme clusters, no space, no line end. *)
Definition takes_marks (c : N) : Prop :=
  GCB c = GCB_Other /\ InCB c <> InCB_Extend /\ InCB c <> InCB_Linker
  /\ ~ In (WB c) [WB_CR; WB_LF; WB_Newline; WB_ZWJ; WB_WSegSpace] /\ ~ In (SB c) [SB_Sep; SB_CR; SB_LF].
(** A character written as [c'] with [marks]. *)
Definition spelling : Type := N * (N * list N).
Definition before (e : spelling) : N := fst e.
Definition after (e : spelling) : list N := fst (snd e) :: snd (snd e).
Definition respells (e : spelling) : Prop := let '(c, (c', marks)) := e in
  same_grapheme c c' /\ same_word c c' /\ same_sentence c c' /\ (marks = [] \/ takes_marks c) /\ Forall mark marks.
