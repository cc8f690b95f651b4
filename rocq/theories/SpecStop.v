(** Specification: how sentences end, and how the next one begins. *)
From Verif Require Import Base SpecUcd SpecRules SpecSentences.

(** A combining mark or a format character. *)
Definition s_mark (c : N) : Prop := SB c = SB_Extend \/ SB c = SB_Format.
(** A line feed, a carriage return, a next-line or a paragraph separator. *)
Definition separator (c : N) : Prop := SB c = SB_Sep \/ SB c = SB_CR \/ SB c = SB_LF.
(** A full stop; an exclamation or question mark and the like. *)
Definition full_stop (c : N) : Prop := SB c = SB_ATerm.
Definition terminator (c : N) : Prop := full_stop c \/ SB c = SB_STerm.
(** Closing quotes and brackets, and then spaces, each with any marks. *)
Definition closing (t : text) : Prop := exists cl sp, t = cl ++ sp /\ Forall (fun c => SB c = SB_Close \/ s_mark c) cl /\ Forall (fun c => SB c = SB_Sp \/ s_mark c) sp.

Definition ends_separated (s : text) : Prop := exists s' c, s = s' ++ [c] /\ separator c.
Definition ends_stopped (s : text) : Prop := exists p t cs, s = p ++ t :: cs /\ terminator t /\ closing cs.
(** ... and the terminator is a full stop. *)
Definition ends_full_stop (s : text) : Prop := exists p t cs, s = p ++ t :: cs /\ full_stop t /\ closing cs.
(** A character that can begin a sentence after another on the same line. *)
Definition may_begin (c : N) : Prop := ~ s_mark c /\ ~ separator c /\ ~ terminator c /\ SB c <> SB_Sp /\ SB c <> SB_SContinue.
(** The first letter, skipping what is neither a letter nor a terminator nor a separator, is a small one. *)
Definition goes_on_small (r : text) : Prop := exists u l v, r = u ++ l :: v /\ SB l = SB_Lower /\
  Forall (fun c => ~ separator c /\ ~ terminator c /\ SB c <> SB_OLetter /\ SB c <> SB_Upper /\ SB c <> SB_Lower) u.
(** A terminator, closing characters, and at least one space. *)
Definition ends_spaced (s : text) : Prop := exists p t cl sp, s = p ++ t :: cl ++ sp /\ terminator t
  /\ Forall (fun c => SB c = SB_Close \/ s_mark c) cl /\ Forall (fun c => SB c = SB_Sp \/ s_mark c) sp /\ Exists (fun c => SB c = SB_Sp) sp.
